(** C116 to C118: the head of a file that mkclean reads, the head and the names that it writes.  Theorems about opened, written_head and
    names of MkHead.v; what is supported and what a file had are specified in MkHeadSpec.v. *)
From Coq Require Import String.
From Verif Require Import Base BaseProofs Tree Str StrSpec StrProofs StrProofs2 Path MkArgs MkArgsSpec MkArgsProofs MkHead MkHeadSpec MkHeadProofs MkHeadProofs2.

(** A file is taken exactly when all elements before the first segment are supported. *)
Theorem C116_accepted dst l :
  (exists r, opened dst l = Some r) <-> exists pre seg post, l = pre ++ seg :: post /\ Forall supported pre /\ h_kind seg = KSegment.
Proof.
  unfold opened. split.
  - intros (r & E). destruct (check_head 0 1 l) as [[s d] [e|]] eqn:C; [|discriminate]. destruct (check_inv _ _ _ _ _ _ C) as (pre & post & H). exists pre, e, post. exact H.
  - intros (pre & seg & post & -> & F & K). rewrite (check_ok pre 0 1 seg post F K). eexists. reflexivity.
Qed.
Print Assumptions C116_accepted.
(** The segment is the first one; the last DocType decides on WebM, the last DocTypeReadVersion on version 1 or 2 of Matroska. *)
Theorem C116_profile dst pre seg post :
  Forall supported pre -> h_kind seg = KSegment ->
  exists src doc, opened dst (pre ++ seg :: post) = Some (src, if dst =? 0 then src else dst, doc, seg) /\
    (none_of KDocType pre -> src = 0) /\
    (forall t, last_of KDocType pre t -> says (h_bytes t) (txt "webm") -> src = P_WEBM) /\
    (forall t, last_of KDocType pre t -> says (h_bytes t) (txt "matroska") -> doc <= 2 -> src = if doc =? 2 then P_V2 else P_V1) /\
    (none_of KDocTypeRead pre -> doc = 1) /\
    (forall v, last_of KDocTypeRead pre v -> - 2 ^ 31 <= h_int v -> doc = h_int v).
Proof.
  intros F K. unfold opened. rewrite (check_ok pre 0 1 seg post F K). set (p := fold_left eff pre (0, 1)). exists (source_profile (fst p) (snd p)), (snd p).
  split; [reflexivity|]. unfold source_profile. split; [|split; [|split; [|split]]].
  - intros N. unfold p. rewrite (eff_src_none pre (0, 1) N). cbn [fst]. reflexivity.
  - intros t L S. unfold p. rewrite (eff_src pre t (0, 1) L). destruct (eqtext _ MATROSKA) eqn:E; [|reflexivity]. apply says_m in E. pose proof (says_one _ _ _ S E) as X. discriminate X.
  - intros t L S B. assert (E : fst p = P_V1) by (unfold p; rewrite (eff_src pre t (0, 1) L); apply says_m in S; rewrite S; reflexivity). rewrite E. change (P_V1 =? P_V1) with true. cbn [andb].
    destruct (Z.eqb_spec (snd p) 2); [reflexivity|].
    replace (snd p =? 3) with false by lia. replace (snd p =? 4) with false by lia. replace (snd p =? 5) with false by lia. reflexivity.
  - intros N. unfold p. apply (eff_doc_none pre (0, 1) N).
  - intros v V B. unfold p. rewrite (eff_doc pre v _ V). destruct V as (a & b & -> & Kv & _). apply Forall_app in F. destruct F as [_ F]. inversion F as [|? ? Sv _]; subst. unfold supported in Sv. rewrite Kv in Sv.
    unfold s32, s_wrap. change (2 ^ (32 - 1)) with 2147483648. change (2 ^ 32) with 4294967296. change (2 ^ 31) with 2147483648 in B. rewrite Z.mod_small by lia. lia.
Qed.
Print Assumptions C116_profile.
(** When the DocTypeReadVersions are no huge numbers, a source is Matroska 1 or 2, WebM, or has no profile. *)
Theorem C116_profiles dst l src d doc seg :
  opened dst l = Some (src, d, doc, seg) -> (forall e, In e l -> h_kind e = KDocTypeRead -> - 2 ^ 31 <= h_int e) ->
  In src [0; P_V1; P_V2; P_WEBM] /\ doc <= 2 /\ In seg l /\ h_kind seg = KSegment.
Proof.
  intros E H. destruct (proj1 (C116_accepted dst l)) as (pre & s & post & -> & F & K); [eexists; exact E|].
  destruct (C116_profile dst pre s post F K) as (src' & doc' & E' & P0 & Pw & Pm & D0 & Dv). rewrite E' in E. injection E as <- <- <- <-.
  assert (B : doc' <= 2).
  { destruct (last_or_none KDocTypeRead pre) as [N|(v & V)]; [rewrite (D0 N); lia|]. pose proof V as (a & b & Ep & Kv & _).
    rewrite (Dv v V); [|apply H; [apply in_or_app; left; rewrite Ep; apply in_or_app; right; left; reflexivity|exact Kv]].
    rewrite Ep in F. apply Forall_app in F. destruct F as [_ F]. inversion F as [|? ? Sv _]; subst. unfold supported in Sv. rewrite Kv in Sv. apply Sv. }
  split; [|split; [exact B|split; [apply in_or_app; right; left; reflexivity|exact K]]].
  destruct (last_or_none KDocType pre) as [N|(t & T)]; [left; symmetry; exact (P0 N)|]. pose proof T as (a & b & Ep & Kt & _).
  pose proof F as F2. rewrite Ep in F2. apply Forall_app in F2. destruct F2 as [_ F2]. inversion F2 as [|? ? St _]; subst. unfold supported in St. rewrite Kt in St. destruct St as [_ [S|S]].
  - rewrite (Pm t T S B). destruct (doc' =? 2); cbn [In]; tauto.
  - rewrite (Pw t T S). cbn [In]. tauto.
Qed.
Print Assumptions C116_profiles.
(** Examples. *)
Definition num k v := Helt k true v [] 0.
Definition doct t := Helt KDocType true 0 t 0.
Definition sgm := Helt KSegment true 0 [] 7.
Example C116_ex :
  Forall supported [num KReadVersion 1; doct (txt "matroska" ++ [0; 0]); num KOther 4; num KDocTypeRead 2] /\
  opened 0 [num KReadVersion 1; doct (txt "matroska" ++ [0; 0]); num KOther 4; num KDocTypeRead 2; sgm] = Some (P_V2, P_V2, 2, sgm) /\
  opened P_WEBM [doct (txt "matroska"); num KDocTypeRead 1; sgm] = Some (P_V1, P_WEBM, 1, sgm) /\
  opened 0 [doct (txt "matroska"); num KDocTypeRead 2; doct (txt "webm"); sgm] = Some (P_WEBM, P_WEBM, 2, sgm) /\
  opened 0 [doct (txt "mp4"); sgm] = None /\ opened 0 [num KMaxIdLength 5; doct (txt "webm"); sgm] = None.
Proof.
  split; [|repeat split; vm_compute; reflexivity]. repeat apply Forall_cons; [..|constructor]; unfold supported, num, doct; cbn [h_kind h_ok h_int h_bytes]; try (split; [reflexivity|]); try exact I; try lia.
  left. split; [vm_compute; intuition discriminate|]. right. exists [0]. reflexivity.
Qed.
(** Findings.  A file that asks for version 3 to 5, which --doctype can write, is refused. *)
Theorem C116_version_refuted dst v l : 2 < v -> opened dst (doct (txt "matroska") :: num KDocTypeRead v :: l) = None.
Proof.
  intros H. unfold opened. cbn [check_head doct num h_kind h_ok h_bytes h_int negb]. change (eqtext (cut 1024 (upto0 (txt "matroska"))) MATROSKA) with true. cbn iota.
  unfold MATROSKA_VERSION. replace (2 <? v) with true by lia. reflexivity.
Qed.
Print Assumptions C116_version_refuted.
(** A file with no DocType, even no head at all, is taken and has no profile; a required version of 2^63 and more is negative and taken, and its
    low 32 bits can choose version 3. *)
Theorem C116_huge_refuted :
  opened 0 [sgm] = Some (0, 0, 1, sgm) /\
  opened 0 [num KReadVersion (s64 (2 ^ 63)); doct (txt "matroska"); num KDocTypeRead (s64 (2 ^ 64 - 2 ^ 32 + 3)); sgm] = Some (P_V3, P_V3, 3, sgm).
Proof. split; vm_compute; reflexivity. Qed.
Print Assumptions C116_huge_refuted.

(** ** C117: the head written *)
Definition version_of (p n : Z) : Prop := p = P_V2 /\ n = 2 \/ p = P_WEBM /\ n = 2 \/ p = P_V3 /\ n = 3 \/ p = P_V4 /\ n = 4 \/ p = P_V5 /\ n = 5.
(** The document is "webm" for WebM and "matroska" for all other profiles; the version is the one of the profile, and for profiles with no
    version of their own the one that the source asked for. *)
Theorem C117_head p doc :
  exists t v, written_head p doc = (t, v, v) /\ (p = P_WEBM -> t = txt "webm") /\ (p <> P_WEBM -> t = txt "matroska") /\
    (forall n, version_of p n -> v = n) /\ ((forall n, ~ version_of p n) -> v = doc).
Proof.
  unfold written_head. do 2 eexists. split; [reflexivity|]. unfold version_of, P_V2, P_WEBM, P_V3, P_V4, P_V5.
  split; [intros ->; reflexivity|]. split; [intros N; replace (p =? 8) with false by lia; reflexivity|]. split.
  - intros n [[-> ->]|[[-> ->]|[[-> ->]|[[-> ->]|[-> ->]]]]]; reflexivity.
  - intros N. assert (p <> 2 /\ p <> 8 /\ p <> 4 /\ p <> 32 /\ p <> 64).
    { repeat split; intros ->; [apply (N 2)|apply (N 2)|apply (N 3)|apply (N 4)|apply (N 5)]; tauto. }
    replace (p =? 2) with false by lia. replace (p =? 8) with false by lia. replace (p =? 4) with false by lia. replace (p =? 32) with false by lia. replace (p =? 64) with false by lia. reflexivity.
Qed.
Print Assumptions C117_head.
(** The profile is the one asked for with --doctype, and the one of the source without. *)
Theorem C117_profile dst l src d doc seg : opened dst l = Some (src, d, doc, seg) -> (dst = 0 -> d = src) /\ (dst <> 0 -> d = dst).
Proof.
  unfold opened. destruct (check_head 0 1 l) as [[s v] [e|]]; [|discriminate]. intros E. injection E as <- <- _ _. unfold dest_profile. destruct (Z.eqb_spec dst 0); tauto.
Qed.
Print Assumptions C117_profile.
(** What mkclean makes of the head it has written: DocType, DocTypeVersion, DocTypeReadVersion, then the segment. *)
Definition head_of (w : list Z * Z * Z) : list helt := let '(t, v, r) := w in [num KReadVersion 1; num KMaxIdLength 4; num KMaxSizeLength 8; doct t; num KOther v; num KDocTypeRead r; sgm].
(** Without --doctype, cleaning the result again finds the profile and the version again. *)
Theorem C117_again l src doc seg :
  opened 0 l = Some (src, src, doc, seg) -> (forall e, In e l -> h_kind e = KDocTypeRead -> - 2 ^ 31 <= h_int e) -> src <> 0 ->
  exists doc', opened 0 (head_of (written_head src doc)) = Some (src, src, doc', sgm) /\ written_head src doc' = written_head src doc.
Proof.
  intros E H N. destruct (C116_profiles 0 l src src doc seg E H) as (I & B & _).
  assert (G : - 2 ^ 31 <= doc /\ (src = P_V1 -> doc <> 2)).
  { destruct (proj1 (C116_accepted 0 l)) as (pre & s & post & -> & F & K); [eexists; exact E|].
    destruct (C116_profile 0 pre s post F K) as (src' & doc' & E' & P0 & Pw & Pm & D0 & Dv). rewrite E' in E. injection E as <- _ <- _. split.
    - destruct (last_or_none KDocTypeRead pre) as [X|(v & V)]; [rewrite (D0 X); lia|]. pose proof V as (a & b & Ep & Kv & _).
      assert (Q : - 2 ^ 31 <= h_int v) by (apply H; [apply in_or_app; left; rewrite Ep; apply in_or_app; right; left; reflexivity|exact Kv]). rewrite (Dv v V Q). exact Q.
    - intros E1 E2. destruct (last_or_none KDocType pre) as [X|(t & T)]; [rewrite (P0 X) in N; congruence|]. pose proof T as (a & b & Ep & Kt & _).
      pose proof F as F2. rewrite Ep in F2. apply Forall_app in F2. destruct F2 as [_ F2]. inversion F2 as [|? ? St _]; subst. unfold supported in St. rewrite Kt in St. destruct St as [_ [S|S]].
      + pose proof (Pm t T S ltac:(lia)) as X. discriminate X.
      + pose proof (Pw t T S) as X. discriminate X. }
  destruct G as [G1 G2]. change (2 ^ 31) with 2147483648 in G1.
  assert (S : s32 doc = doc) by (unfold s32, s_wrap; change (2 ^ (32 - 1)) with 2147483648; change (2 ^ 32) with 4294967296; rewrite Z.mod_small by lia; lia).
  cbn [In] in I. destruct I as [I|[<-|[<-|[<-|[]]]]]; [congruence|..].
  - exists doc. split; [|reflexivity]. specialize (G2 eq_refl). unfold opened, head_of, written_head.
    change (P_V1 =? P_V2) with false. change (P_V1 =? P_WEBM) with false. change (P_V1 =? P_V3) with false. change (P_V1 =? P_V4) with false. change (P_V1 =? P_V5) with false. cbn [orb]. cbn iota.
    cbn [check_head num doct sgm h_kind h_ok h_int h_bytes negb]. change (EBML_MAX_VERSION <? 1) with false. change (EBML_MAX_ID <? 4) with false. change (EBML_MAX_SIZE <? 8) with false. cbn iota.
    change (eqtext (cut 1024 (upto0 MATROSKA)) MATROSKA) with true. cbn iota. unfold MATROSKA_VERSION, to_int. replace (2 <? doc) with false by lia. rewrite S.
    unfold source_profile. change (P_V1 =? P_V1) with true. cbn [andb]. replace (doc =? 2) with false by lia. replace (doc =? 3) with false by lia. replace (doc =? 4) with false by lia. replace (doc =? 5) with false by lia. reflexivity.
  - exists 2. split; vm_compute; reflexivity.
  - exists 2. split; vm_compute; reflexivity.
Qed.
Print Assumptions C117_again.
(** WebM is never optimised, whatever the options. *)
Theorem C117_webm s dst : dst = P_WEBM -> dest_optimize dst s = (true, false).
Proof. intros ->. reflexivity. Qed.
Print Assumptions C117_webm.
Theorem C117_not_webm s dst : dst <> P_WEBM -> dest_optimize dst s = (o_noopt s, o_opt s).
Proof. intros N. unfold dest_optimize, P_WEBM in *. replace (dst =? 8) with false by lia. reflexivity. Qed.
Print Assumptions C117_not_webm.
Example C117_ex : opened 0 [doct (txt "webm"); num KDocTypeRead 1; sgm] = Some (P_WEBM, P_WEBM, 1, sgm) /\ written_head P_WEBM 1 = (txt "webm", 2, 2) /\ written_head P_V4 1 = (txt "matroska", 4, 4).
Proof. repeat split; vm_compute; reflexivity. Qed.
(** Findings: files written with --doctype 3, 6 and 7 (Matroska 3, 4 and 5) are refused by mkclean itself; --doctype 1 of a file that asks for version 2 leaves
    the version 2, so that the result counts as Matroska 2. *)
Theorem C117_again_refuted :
  Forall (fun p => forall doc, opened 0 (head_of (written_head p doc)) = None) [P_V3; P_V4; P_V5] /\
  written_head (dest_profile P_V1 P_V2) 2 = (txt "matroska", 2, 2) /\
  opened 0 (head_of (written_head (dest_profile P_V1 P_V2) 2)) = Some (P_V2, P_V2, 2, sgm).
Proof.
  split; [|split; vm_compute; reflexivity]. repeat apply Forall_cons; [..|constructor]; intros doc; unfold opened, head_of, written_head;
    change (P_V3 =? P_V3) with true; change (P_V4 =? P_V4) with true; change (P_V5 =? P_V5) with true; change (P_V3 =? P_V4) with false; change (P_V3 =? P_V5) with false; change (P_V4 =? P_V5) with false;
    cbn iota; reflexivity.
Qed.
Print Assumptions C117_again_refuted.

(** ** C118: the names *)
(** The application that wrote the file becomes mkclean with its version and a letter for each option, "from" what was there before: both names, or one when they
    are the same up to case or there is one only; all of it cut to 1023 characters. *)
Theorem C118_names lib regr remux opt live noopt alt muxing app prev :
  text muxing -> text app -> zlen muxing < 1024 -> zlen app < 1024 -> had muxing app prev -> ~ begins (txt "mkclean ") prev ->
  names lib regr remux opt live noopt alt muxing app =
  Ok (if regr then txt "libebml2 + libmatroska2" else firstn 1023 lib,
      firstn 1023 ((if regr then txt "mkclean regression" else txt "mkclean 0.10.0" ++ letters remux opt live noopt alt) ++ from prev)).
Proof.
  intros Tm Ta Lm La H N. rewrite names_eq, (original_ok _ _ _ Tm Ta Lm La H). cbv zeta.
  assert (S : starts_mkclean (c1023 prev) = false).
  { destruct (starts_mkclean _) eqn:E; [|reflexivity]. apply starts_ok in E; [|apply c_text, (had_text _ _ _ Tm Ta H)]. exfalso. apply N. refine (proj1 (begins_c _ _ _) E). change (length (txt "mkclean ")) with 8%nat. lia. }
  rewrite S. cbn [bind]. rewrite final_ok. destruct regr; reflexivity.
Qed.
Print Assumptions C118_names.
(** When what was there before begins with "mkclean ", in any case, 14 characters of it are left out. *)
Theorem C118_mkclean lib regr remux opt live noopt alt muxing app a b :
  text muxing -> text app -> zlen muxing < 1024 -> zlen app < 1024 -> had muxing app (a ++ b) -> zlen a = 14 -> begins (txt "mkclean ") a -> zlen b <= 1009 ->
  names lib regr remux opt live noopt alt muxing app =
  Ok (if regr then txt "libebml2 + libmatroska2" else firstn 1023 lib,
      firstn 1023 ((if regr then txt "mkclean regression" else txt "mkclean 0.10.0" ++ letters remux opt live noopt alt) ++ from b)).
Proof.
  intros Tm Ta Lm La H L14 B Lb. rewrite names_eq, (original_ok _ _ _ Tm Ta Lm La H). cbv zeta.
  assert (F : c1023 (a ++ b) = a ++ b) by (apply c1023_fit; rewrite zlen_app; lia). rewrite F.
  assert (S : starts_mkclean (a ++ b) = true).
  { apply starts_ok; [exact (had_text _ _ _ Tm Ta H)|]. destruct B as (x & y & -> & S). exists x, (y ++ b). rewrite <- app_assoc. split; [reflexivity|exact S]. }
  rewrite S. pose proof (zlen_nonneg b). replace (zlen (a ++ b) <? 14) with false by (rewrite zlen_app; lia). cbn [bind].
  assert (K : skipn 14 (a ++ b) = b). { unfold zlen in L14. replace 14%nat with (length a) by lia. rewrite skipn_app, skipn_all, Nat.sub_diag. reflexivity. }
  rewrite K. rewrite <- (c1023_fit b) at 1 by lia. rewrite final_ok. destruct regr; reflexivity.
Qed.
Print Assumptions C118_mkclean.
(** Whatever the names were, the new ones fit. *)
Theorem C118_bounded lib regr remux opt live noopt alt muxing app m w :
  names lib regr remux opt live noopt alt muxing app = Ok (m, w) -> zlen m <= 1023 /\ zlen w <= 1023.
Proof.
  rewrite names_eq. cbv zeta. intros E.
  assert (K : exists s, m = (if regr then LIBS else cut MAXL lib) /\ w = final regr remux opt live noopt alt s).
  { destruct (starts_mkclean _); [destruct (_ <? 14); [discriminate|]|]; cbn [bind] in E; injection E as <- <-; eexists; split; reflexivity. }
  destruct K as (s & -> & ->). split.
  - destruct regr; [vm_compute; discriminate|]. rewrite cut_c. apply c1023_len.
  - unfold final. pose proof (marks_len remux opt live noopt alt). destruct regr, s; rewrite ?cut_c; try apply c1023_len; [lia|]. rewrite cat_c by lia. apply c1023_len.
Qed.
Print Assumptions C118_bounded.
(** Passes of mkclean over the same file, the first option first; the name after them by the specification. *)
Definition opts := (bool * bool * bool * bool * bool)%type.
Definition own (o : opts) : list Z := let '(r, p, l, u, t) := o in txt "mkclean 0.10.0" ++ letters r p l u t.
Fixpoint passes (lib : list Z) (l : list opts) (muxing app : list Z) : res (list Z * list Z) :=
  match l with
  | [] => Ok (muxing, app)
  | o :: l => let '(r, p, v, u, t) := o in do x <- names lib false r p v u t muxing app; passes lib l (fst x) (snd x)
  end.
Definition chain (lib : list Z) (l : list opts) (w : list Z) : list Z := fold_left (fun w o => own o ++ txt " from " ++ lib ++ txt " + " ++ w) l w.
Lemma chain_c lib l : forall w, firstn 1023 (chain lib l (firstn 1023 w)) = firstn 1023 (chain lib l w).
Proof.
  induction l as [|o l IH] using rev_ind; intros w; [cbn [chain fold_left]; rewrite firstn_firstn; reflexivity|].
  unfold chain in *. rewrite !fold_left_app. cbn [fold_left]. rewrite !app_assoc.
  rewrite <- (firstn_tail _ (fold_left _ l (firstn 1023 w))), IH, firstn_tail. reflexivity.
Qed.
Lemma own_m o : exists r, own o = 109 :: r. Proof. destruct o as [[[[r p] l] u] t]. eexists. reflexivity. Qed.
Lemma own_text o : text (own o). Proof. destruct o as [[[[[] []] []] []] []]; txtd. Qed.
(** A file of the same libraries passes: the old name stays at the end, every pass is in front of it. *)
Lemma passes_ok lib rest : lib = txt "libebml2" ++ rest -> text lib -> zlen lib < 1024 ->
  forall l w, text w -> (exists r, w = 109 :: r) -> zlen w < 1024 -> passes lib l lib w = Ok (lib, firstn 1023 (chain lib l w)).
Proof.
  intros El Tl Ll. induction l as [|o l IH]; intros w Tw M Lw.
  - cbn [passes chain fold_left]. unfold zlen in Lw. rewrite firstn_all2 by lia. reflexivity.
  - cbn [passes]. pose proof (own_m o) as (ro & Eo). pose proof (own_text o) as To. destruct o as [[[[r p] v] u] t] eqn:EO. rewrite <- EO in *.
    assert (H : had lib w (lib ++ txt " + " ++ w)).
    { apply had_both; [|rewrite El; discriminate]. destruct M as (rw & ->). rewrite El. intros S. inversion S as [|? ? ? ? X _]; subst. unfold same_letter in X. lia. }
    assert (NB : ~ begins (txt "mkclean ") (lib ++ txt " + " ++ w)).
    { intros (a & b & E & S). rewrite El in E. inversion S as [|x y a' ? X _]; subst. injection E as <- _. unfold same_letter in X. lia. }
    rewrite (C118_names lib false r p v u t lib w _ Tl Tw Ll Lw H NB). cbn [bind fst snd]. unfold zlen in Ll. rewrite (firstn_all2 lib) by lia.
    change (txt "mkclean 0.10.0" ++ letters r p v u t) with (own (r, p, v, u, t)). rewrite <- EO.
    assert (Ef : from (lib ++ txt " + " ++ w) = txt " from " ++ lib ++ txt " + " ++ w) by (rewrite El; reflexivity). rewrite Ef.
    set (w2 := own o ++ txt " from " ++ lib ++ txt " + " ++ w). rewrite IH.
    + rewrite chain_c. reflexivity.
    + apply text_firstn. unfold w2. repeat apply text_app_i; try assumption; txtd.
    + unfold w2. rewrite Eo. eexists. reflexivity.
    + unfold zlen. rewrite firstn_length. lia.
Qed.
Theorem C118_history lib rest o l muxing app prev :
  lib = txt "libebml2" ++ rest -> text lib -> zlen lib < 1024 ->
  text muxing -> text app -> zlen muxing < 1024 -> zlen app < 1024 -> had muxing app prev -> ~ begins (txt "mkclean ") prev ->
  passes lib (o :: l) muxing app = Ok (lib, firstn 1023 (chain lib l (own o ++ from prev))).
Proof.
  intros El Tl Ll Tm Ta Lm La H N. destruct o as [[[[r p] v] u] t] eqn:EO. cbn [passes].
  rewrite (C118_names lib false r p v u t muxing app prev Tm Ta Lm La H N). cbn [bind fst snd].
  assert (E : firstn 1023 lib = lib) by (apply firstn_all2; unfold zlen in Ll; lia). rewrite E.
  change (txt "mkclean 0.10.0" ++ letters r p v u t) with (own (r, p, v, u, t)).
  rewrite (passes_ok lib rest El Tl Ll).
  - rewrite chain_c. reflexivity.
  - apply text_firstn, text_app_i; [apply own_text|]. pose proof (had_text _ _ _ Tm Ta H) as Tp. unfold from. destruct prev; [constructor|]. apply text_app_i; [txtd|exact Tp].
  - destruct (own_m (r, p, v, u, t)) as (x & ->). eexists. reflexivity.
  - unfold zlen. rewrite firstn_length. lia.
Qed.
Print Assumptions C118_history.
Example C118_ex :
  had (txt "Lavf58") (txt "LAVF58") (txt "Lavf58") /\ ~ begins (txt "mkclean ") (txt "Lavf58") /\
  names (txt "libebml2 v1 + libmatroska2 v2") false true false false true false (txt "Lavf58") (txt "LAVF58") = Ok (txt "libebml2 v1 + libmatroska2 v2", txt "mkclean 0.10.0 ru from Lavf58") /\
  had (txt "m") (txt "a") (txt "m + a") /\
  names (txt "libebml2 v1 + libmatroska2 v2") true true false false true false (txt "m") (txt "a") = Ok (txt "libebml2 + libmatroska2", txt "mkclean regression from m + a").
Proof.
  split; [|split; [|split; [vm_compute; reflexivity|split; [|vm_compute; reflexivity]]]].
  - apply had_same. apply same_ok; [txtd|txtd|vm_compute; reflexivity].
  - rewrite begins_firstn. intros S. apply same_len in S. discriminate S.
  - apply had_both; [|discriminate]. intros S. apply same_ok in S; [vm_compute in S; discriminate|txtd|txtd].
Qed.
(** Findings: a second pass of mkclean does not replace its own name, since MuxingApp comes first in what it looks at; a file with one name, "mkclean 0.9.0",
    makes it read behind the end of the text; a name that is its own is not removed with its marks, " from " is left twice. *)
Theorem C118_again_refuted :
  let lib := txt "libebml2 v1 + libmatroska2 v2" in
  passes lib [(false, false, false, false, false); (false, false, false, false, false)] [] (txt "X") =
    Ok (lib, txt "mkclean 0.10.0 from libebml2 v1 + libmatroska2 v2 + mkclean 0.10.0 from X") /\
  names lib false false false false false false [] (txt "mkclean 0.9.0") = Bad /\
  names lib false false false false false false [] (txt "mkclean 0.10.0 from X") = Ok (lib, txt "mkclean 0.10.0 from  from X").
Proof. repeat split; vm_compute; reflexivity. Qed.
Print Assumptions C118_again_refuted.
