(** Proofs about mkvalidator: tracks. *)
From Verif Require Import Base BaseProofs EbmlId EbmlIdSpec EbmlIdProofs IntElt IntEltSpec IntEltProofs EltHead Ebml Stream Tree TreeRead TreeSpec TreeProofs Create CreateSpec CreateProofs CreateProofs2 Frame BlockProofs BlockProofs6 BlockTime BlockTimeProofs Cues CuesSpec CuesProofs Str StrSpec StrProofs StrProofs3 MkSchema MkSpec MkProofs Validator ValidatorSpec ValidatorProofs ValidatorProofs3.

Lemma text_fun c e s s' : text_is c e s -> text_is c e s' -> s = s'.
Proof.
  assert (U : forall a b r r', plain a -> plain b -> a ++ 0 :: r = b ++ 0 :: r' -> a = b).
  { induction a as [|x a IH]; intros [|y b] r r' Ha Hb H; cbn [app] in H; [reflexivity| | |].
    - injection H as <- _. apply Forall_cons_iff in Hb. lia.
    - injection H as -> _. apply Forall_cons_iff in Ha. lia.
    - injection H as -> H. f_equal. apply Forall_cons_iff in Ha. apply Forall_cons_iff in Hb. eapply IH; [apply Ha|apply Hb|exact H]. }
  intros [(i & r & H & P)|[(i & H & ->)|(H & ->)]] [(i' & r' & H' & P')|[(i' & H' & ->)|(H' & ->)]]; try reflexivity;
    try (destruct (first_none _ _ _ H H')); try (destruct (first_none _ _ _ H' H)); pose proof (first_fun _ _ _ _ H H') as Q; try discriminate.
  assert (Q' : s ++ 0 :: r = s' ++ 0 :: r') by congruence. eapply U; eassumption.
Qed.
Lemma cstr_plain s r : plain s -> cstr (s ++ 0 :: r) = Some s.
Proof. induction s as [|x s IH]; intros H; [reflexivity|]. apply Forall_cons_iff in H. destruct H as [H1 H2]. cbn [app cstr]. replace (x =? 0) with false by lia. rewrite IH by exact H2. reflexivity. Qed.
Lemma got_text td prof p e c : elem p e -> listed p c -> c_class (mk c) = KString -> c_def (mk c) = None ->
  exists s, (do d <- got td prof c e; text_of d) = Ok s /\ text_is c e s /\ plain s.
Proof.
  intros He Hl Hc Hd. destruct (elem_master p e He (listed_master _ _ Hl)) as (i & chk & ch & ->). unfold got, get_child.
  pose proof (lookup_ok p _ c He Hl) as H. unfold lookup in H. cbn [children] in H. destruct (find_child mk (c_id (mk c)) ch) as [d|] eqn:F.
  - destruct H as [H1 [H2 Hk]]. cbn [bind fst]. inversion H2 as [j v c' Hk' Hi Hlf|j k jch c' Hk' Hc' HF]; subst; cbn [einfo] in Hk; rewrite Hk in Hk'; injection Hk' as <-; [|congruence].
    unfold leaf_ok in Hlf. rewrite Hc in Hlf. destruct Hlf as [->|(s & r & -> & Hp)]; unfold text_of, string_value, opt_res.
    + exists []. split; [reflexivity|]. split; [right; left; exists j; auto|constructor].
    + rewrite cstr_plain by exact Hp. exists s. split; [reflexivity|]. split; [left; exists j, r; auto|exact Hp].
  - rewrite create_leaf by congruence. cbn [bind fst]. unfold default_leaf, fresh_elt, text_of. cbn [kind_class]. rewrite Hc, Hd. cbn [string_value class_val opt_res]. exists []. split; [reflexivity|]. split; [right; right; auto|constructor].
Qed.
Lemma same_name_ok a b : plain a -> plain b -> exists r : bool, same_name a b = Ok r /\ (r = true <-> same_text a b).
Proof.
  intros Ha Hb. unfold same_name. destruct (icmp_gen a b [] [] Ha Hb) as (r & _ & H1 & H2). exists (r =? 0). split; [exact H2|]. rewrite <- (order_eq a b Ha Hb), <- H1, Z.eqb_eq. symmetry. apply Z.compare_eq_iff.
Qed.
Lemma upper_same b : ascii_upper b = b <-> ~ 97 <= b <= 122.
Proof. unfold ascii_upper. destruct (_ && _) eqn:Q; lia. Qed.
Lemma map_upper s : map ascii_upper s = s <-> forall b, In b s -> ~ 97 <= b <= 122.
Proof.
  induction s as [|x s IH]; cbn [map]; [split; [intros _ b []|reflexivity]|]. split.
  - intros H. injection H as H1 H2. intros b [<-|Hb]; [apply upper_same; exact H1|apply IH; assumption].
  - intros H. f_equal; [apply upper_same; apply H; left; reflexivity|apply IH; intros b Hb; apply H; right; exact Hb].
Qed.
Lemma upper_letter x k : 0 < x < 256 -> 65 <= k <= 90 -> (ascii_upper x = k <-> same_letter x k).
Proof. unfold ascii_upper, same_letter. intros. destruct (_ && _) eqn:Q; lia. Qed.
Lemma name_ok s : plain s -> forall m, In m (check_name s (map ascii_upper s)) <-> (m = Warn 0x307 /\ exists b, In b s /\ 97 <= b <= 122) \/ (m = Warn 0x308 /\ ~ codec_name s).
Proof.
  intros Hs m. unfold check_name. rewrite in_app_iff, !in_when.
  assert (A : negb (list_eqb (map ascii_upper s) s) = true <-> exists b, In b s /\ 97 <= b <= 122).
  { rewrite negb_true_iff. split.
    - intros H. destruct (Exists_dec (fun b => 97 <= b <= 122) s) as [E|E].
      + intros x. destruct (Z_le_dec 97 x), (Z_le_dec x 122); [left; lia|right; lia..].
      + apply Exists_exists in E. exact E.
      + exfalso. assert (Q : map ascii_upper s = s) by (apply map_upper; intros b Hb Hr; apply E; apply Exists_exists; eauto). rewrite Q, list_eqb_refl in H. discriminate.
    - intros (b & Hb & Hr). apply list_eqb_neq. intros Q. rewrite map_upper in Q. apply (Q b Hb Hr). }
  assert (B : ((zlen (map ascii_upper s) <? 3) || negb (nth 1 (map ascii_upper s) 0 =? 95) || negb (existsb (Z.eqb (nth 0 (map ascii_upper s) 0)) [65; 86; 83; 66])) = true <-> ~ codec_name s).
  { match goal with |- ?b = true <-> _ => assert (N : b = false <-> codec_name s) end.
    { rewrite !orb_false_iff, !negb_false_iff. destruct s as [|x [|y [|z r]]]; cbn [map nth].
      1,2,3: split; [intros [[H _] _]; exfalso; unfold zlen in H; cbn [length] in H; lia|intros (a & r & E & Hr & _); inversion E; subst; congruence].
      unfold plain in Hs. rewrite !Forall_cons_iff in Hs. destruct Hs as (Hx & Hy & Hz & _). pose proof (zlen_nonneg r) as Hn.
      assert (Y : ascii_upper y = 95 <-> y = 95) by (unfold ascii_upper; destruct (_ && _) eqn:Q; lia).
      rewrite Z.eqb_eq, Y, existsb_exists. rewrite !zlen_cons. split.
      - intros [[_ ->] (k & Hk & E)]. apply Z.eqb_eq in E. exists x, (z :: r). split; [reflexivity|]. split; [discriminate|]. exists k. split; [exact Hk|]. apply upper_letter; [exact Hx| |exact E]. cbn [In] in Hk. lia.
      - intros (x' & r' & [= <- -> E] & _ & k & Hk & HL). split; [split; [|reflexivity]|].
        + rewrite zlen_map || unfold zlen; rewrite ?map_length; lia.
        + exists k. split; [exact Hk|]. apply Z.eqb_eq. apply upper_letter; [exact Hx| |exact HL]. cbn [In] in Hk. lia. }
    rewrite <- N. destruct (_ || _ || _); split; intros H; try reflexivity; try discriminate; congruence. }
  rewrite A, B. tauto.
Qed.

(** Rates. *)
Lemma rate_ok p e c : elem p e -> listed p c -> c_class (mk c) = KFloat ->
  exists l, null_rate c e = Ok l /\ forall m, In m l <-> m = Err 0x30A /\ exists i b, first_of c e (Leaf i (VFlt b)) /\ (b = 0 \/ b = 2 ^ 63).
Proof.
  intros He Hl Hc. unfold null_rate. pose proof (lookup_ok p e c He Hl) as H. destruct (lookup c e) as [d|].
  - destruct H as [H1 [H2 Hk]]. inversion H2 as [j v c' Hk' Hi Hlf|j k jch c' Hk' Hc' HF]; subst; cbn [einfo] in Hk; rewrite Hk in Hk'; injection Hk' as <-; [|congruence].
    unfold leaf_ok in Hlf. rewrite Hc in Hlf. destruct Hlf as (b & ->). cbn [float_zero bind]. eexists. split; [reflexivity|]. intros m. rewrite in_when. split.
    + intros [Hb ->]. split; [reflexivity|]. exists j, b. split; [exact H1|lia].
    + intros [-> (i & b' & Hf & Hb)]. pose proof (first_fun _ _ _ _ H1 Hf) as Q. injection Q as <- <-. split; [lia|reflexivity].
  - exists []. split; [reflexivity|]. intros m. split; [intros []|]. intros [_ (i & b & Hf & _)]. destruct (first_none _ _ _ Hf H).
Qed.
Lemma created_rates td prof a : (td 8000 <> 0 /\ td 8000 <> 2 ^ 63) -> create mk td 4 true prof cAudio = Ok a -> null_rate cOutputSamplingFrequency a = Ok [] /\ null_rate cSamplingFrequency a = Ok [].
Proof.
  intros Ht. rewrite create_master by reflexivity. destruct (c_sem (mk cAudio)) as [l|] eqn:Hl; [|discriminate]. destruct (Create.fill _ _ _ _ _) as [| | |ch] eqn:F; try discriminate. cbn [bind]. intros Ha. assert (E : children a = ch) by (injection Ha as <-; reflexivity). clear Ha.
  destruct (fill_ok mk _ _ (create_kind mk td 3 true prof) _ _ _ F) as (ss & new & Hch & H1 & _ & _). cbn [app] in Hch. subst new.
  assert (HF : forall e, In e ch -> (exists i, e = Leaf i (VFlt (td 8000)) /\ e_kind i = Known 156) \/ e_kind (einfo e) = Known 158 \/ e_kind (einfo e) = Known 161).
  { intros e He. destruct (in_forall2 _ _ _ H1 e He) as (s & _ & Hs & (Hm & _) & Hcr & _).
    vm_compute in Hl. injection Hl as <-. destruct Hs as [<-|[<-|[<-|[<-|[<-|[<-|[]]]]]]]; try discriminate Hm; cbn [s_ctx] in Hcr.
    - rewrite create_leaf in Hcr by (vm_compute; discriminate). left. assert (E2 : default_leaf mk td 156 = e) by congruence. vm_compute in E2. subst e. eexists. split; reflexivity.
    - right; left. apply create_kind in Hcr. exact Hcr.
    - right; right. apply create_kind in Hcr. exact Hcr. }
  assert (G : forall c, c_id (mk c) <> c_id (mk 158) -> c_id (mk c) <> c_id (mk 161) -> null_rate c a = Ok []).
  { intros c N1 N2. unfold null_rate, lookup. rewrite E. destruct (find_child mk (c_id (mk c)) ch) as [d|] eqn:Q; [|reflexivity]. apply find_child_some in Q. destruct Q as [Q1 Q2].
    destruct (HF d Q1) as [(i & -> & _)|[K|K]]; [|unfold eid_of in Q2; rewrite K in Q2; cbn [kind_id] in Q2; congruence..].
    cbn [float_zero bind]. replace (td 8000 =? 0) with false by lia. replace (td 8000 =? 2 ^ 63) with false by lia. reflexivity. }
  split; apply G; vm_compute; discriminate.
Qed.

(** Links. *)
Lemma file_ok uid a : elem cAttachments a -> forall l, incl l (kids a) -> exists b : bool, file_with uid l = Ok b /\ (b = true <-> exists f i, In f l /\ of_class cAttachedFile f /\ first_of cFileUID f (Leaf i (VInt uid))).
Proof.
  intros Ha. assert (La : listed cAttachments cAttachedFile) by mk_side. assert (Lu : listed cAttachedFile cFileUID) by mk_side.
  induction l as [|f l IH]; intros Hi; cbn [file_with]; [exists false; split; [reflexivity|]; split; [discriminate|intros (? & ? & [] & _)]|].
  assert (Hf : In f (kids a)) by (apply Hi; left; reflexivity). destruct (IH ltac:(intros x Hx; apply Hi; right; exact Hx)) as (b & Hb & IHb).
  pose proof (child_iff cAttachments a cAttachedFile f Ha La Hf) as Hc. unfold is_type. destruct (eid_of mk (einfo f) =? c_id (mk cAttachedFile)) eqn:Q.
  - assert (Hk : of_class cAttachedFile f) by (apply Hc; lia). pose proof (child_shaped _ _ _ _ Ha La Hf Hk) as He. pose proof (lookup_ok _ f cFileUID He Lu) as H.
    destruct (lookup cFileUID f) as [d|].
    + destruct H as [H1 H2]. destruct (elem_int cFileUID d H2 ltac:(mk_side)) as (j & x & -> & Hx). cbn [int_of bind]. destruct (Z.eqb_spec x uid) as [->|N].
      * exists true. split; [reflexivity|]. split; [|reflexivity]. intros _. exists f, j. split; [left; reflexivity|auto].
      * exists b. split; [exact Hb|]. rewrite IHb. split; intros (g & i & H3 & H4 & H5); exists g, i; [split; [right; exact H3|auto]|]. destruct H3 as [<-|H3]; [|auto]. exfalso. apply N.
        pose proof (first_fun _ _ _ _ H1 H5). congruence.
    + exists b. split; [exact Hb|]. rewrite IHb. split; intros (g & i & H3 & H4 & H5); exists g, i; [split; [right; exact H3|auto]|]. destruct H3 as [<-|H3]; [|auto]. destruct (first_none _ _ _ H5 H).
  - exists b. split; [exact Hb|]. rewrite IHb. split; intros (g & i & H3 & H4 & H5); exists g, i; [split; [right; exact H3|auto]|]. destruct H3 as [<-|H3]; [|auto]. exfalso. apply Hc in H4. lia.
Qed.
Lemma links_ok att : (forall a, att = Some a -> elem cAttachments a) -> forall l, Forall (elem cAttachmentLink) l -> exists r, check_links att l = Ok r /\ forall m, In m r <->
  (m = Err 0x305 /\ att = None /\ l <> []) \/ (m = Err 0x306 /\ exists a i u, att = Some a /\ In (Leaf i (VInt u)) l /\ ~ attached a u).
Proof.
  intros Ha. induction l as [|k l IH]; intros HF; cbn [check_links].
  - exists []. split; [reflexivity|]. intros m. split; [intros []|]. intros [(_ & _ & H)|(_ & a & i & u & _ & [] & _)]. congruence.
  - apply Forall_cons_iff in HF. destruct HF as [F1 F2]. destruct att as [a|].
    + destruct (elem_int _ _ F1 ltac:(mk_side)) as (j & x & -> & Hx). cbn [int_of bind]. specialize (Ha a eq_refl). rewrite children_kids.
      destruct (file_ok x a Ha (kids a) (incl_refl _)) as (b & -> & Hb). cbn [bind]. destruct (IH F2) as (r & -> & Hr). cbn [bind]. eexists. split; [reflexivity|]. intros m. rewrite in_app_iff, in_when, Hr. fold (attached a x) in Hb. split.
      * intros [[H1 H2]|[(_ & [=] & _)|(-> & a' & i & u & [= <-] & H1 & H2)]].
        -- right. split; [exact H2|]. exists a, j, x. split; [reflexivity|]. split; [left; reflexivity|]. intros H. apply Hb in H. subst b. discriminate.
        -- right. split; [reflexivity|]. exists a, i, u. split; [reflexivity|]. split; [right; exact H1|exact H2].
      * intros [(_ & [=] & _)|(-> & a' & i & u & [= <-] & [H1|H1] & H2)].
        -- left. injection H1 as <- <-. split; [|reflexivity]. destruct b; [|reflexivity]. exfalso. apply H2. apply Hb. reflexivity.
        -- right. right. split; [reflexivity|]. exists a, i, u. auto.
    + exists [Err 0x305]. split; [reflexivity|]. intros m. cbn [In]. split.
      * intros [<-|[]]. left. split; [reflexivity|]. split; [reflexivity|discriminate].
      * intros [(-> & _)|(_ & a & i & u & [=] & _)]. left. reflexivity.
Qed.
Lemma webm_ok type name : plain name -> exists l, check_webm type name = Ok l /\ forall m, In m l <->
  (m = Err 0x303 /\ type = 2 /\ ~ same_text name VORBIS_NAME /\ ~ same_text name OPUS_NAME) \/
  (m = Err 0x304 /\ type = 1 /\ ~ same_text name VP8_NAME /\ ~ same_text name VP9_NAME) \/ (m = Err 0x302 /\ type <> 1 /\ type <> 2).
Proof.
  intros Hn. assert (P : forall l, forallb (fun b => (0 <? b) && (b <? 256)) l = true -> plain l).
  { intros l H. apply Forall_forall. intros b Hb. rewrite forallb_forall in H. specialize (H b Hb). cbn beta in H. lia. }
  unfold check_webm, TRACK_AUDIO, TRACK_VIDEO. destruct (Z.eqb_spec type 2) as [->|N2]; [|destruct (Z.eqb_spec type 1) as [->|N1]].
  - destruct (same_name_ok name VORBIS_NAME Hn (P VORBIS_NAME eq_refl)) as (a & Ha & Ka). destruct (same_name_ok name OPUS_NAME Hn (P OPUS_NAME eq_refl)) as (b & Hb & Kb).
    change A_VORBIS with VORBIS_NAME. change A_OPUS with OPUS_NAME. rewrite Ha, Hb. cbn [bind]. eexists. split; [reflexivity|]. intros m. rewrite in_when, <- Ka, <- Kb. destruct a, b; cbn [negb andb]; split; intros H; decompose [and or] H; try discriminate; try lia; try congruence; try (exfalso; tauto). subst.
    left. repeat split; discriminate. all: auto.
  - destruct (same_name_ok name VP8_NAME Hn (P VP8_NAME eq_refl)) as (a & Ha & Ka). destruct (same_name_ok name VP9_NAME Hn (P VP9_NAME eq_refl)) as (b & Hb & Kb).
    change V_VP8 with VP8_NAME. change V_VP9 with VP9_NAME. rewrite Ha, Hb. cbn [bind]. eexists. split; [reflexivity|]. intros m. rewrite in_when, <- Ka, <- Kb. destruct a, b; cbn [negb andb]; split; intros H; decompose [and or] H; try discriminate; try lia; try congruence; try (exfalso; tauto). subst.
    right; left. repeat split; discriminate. all: auto.
  - eexists. split; [reflexivity|]. intros m. cbn [In]. split; [intros [<-|[]]; right; right; auto|]. intros [(_ & H & _)|[(_ & H & _)|(-> & _)]]; [lia|lia|left; reflexivity].
Qed.
Lemma track_ok td prof att t k name : (td 8000 <> 0 /\ td 8000 <> 2 ^ 63) -> elem cTrackEntry t -> (forall a, att = Some a -> elem cAttachments a) ->
  int_is cTrackType t k -> text_is cCodecID t name ->
  exists l, check_track td prof att t = Ok l /\ forall m, In m l <->
    (m = Warn 0x307 /\ exists b, In b name /\ 97 <= b <= 122) \/ (m = Warn 0x308 /\ ~ codec_name name) \/
    (m = Err 0x30A /\ k = 2 /\ zero_rate t) \/
    (m = Err 0x303 /\ prof = 8 /\ k = 2 /\ ~ same_text name VORBIS_NAME /\ ~ same_text name OPUS_NAME) \/
    (m = Err 0x304 /\ prof = 8 /\ k = 1 /\ ~ same_text name VP8_NAME /\ ~ same_text name VP9_NAME) \/
    (m = Err 0x302 /\ prof = 8 /\ k <> 1 /\ k <> 2) \/
    (m = Err 0x305 /\ att = None /\ has_child cAttachmentLink t) \/
    (m = Err 0x306 /\ exists a u, att = Some a /\ links_to t u /\ ~ attached a u).
Proof.
  intros Htd Ht Hatt Hk Hname. unfold check_track.
  destruct (got_int_ok td prof _ t cTrackNumber Ht ltac:(mk_side) ltac:(mk_side) ltac:(mk_side)) as (n & -> & _). cbn [bind].
  destruct (got_int_ok td prof _ t cTrackType Ht ltac:(mk_side) ltac:(mk_side) ltac:(mk_side)) as (k' & -> & Hk' & _). rewrite (int_fun _ _ _ _ Hk' Hk). cbn [bind].
  destruct (got_text td prof _ t cCodecID Ht ltac:(mk_side) ltac:(mk_side) ltac:(mk_side)) as (s & Hs & His & Hp). pose proof (text_fun _ _ _ _ His Hname) as ->.
  destruct (got td prof cCodecID t) as [| | |d]; try discriminate. cbn [bind] in Hs |- *. rewrite Hs. cbn [bind].
  rewrite upr_ok by (apply Forall_forall; intros b Hb; unfold plain in Hp; rewrite Forall_forall in Hp; specialize (Hp b Hb); lia). cbn [bind]. rewrite removelast_last.
  assert (HA : exists l, (if k =? TRACK_AUDIO then do audio <- got td prof cAudio t; do a <- null_rate cOutputSamplingFrequency audio; do b <- null_rate cSamplingFrequency audio; Ok (a ++ b) else Ok []) = Ok l /\
    forall m, In m l <-> m = Err 0x30A /\ k = 2 /\ zero_rate t).
  { unfold TRACK_AUDIO. destruct (Z.eqb_spec k 2) as [->|Nk]; [|exists []; split; [reflexivity|]; intros m; split; [intros []|tauto]].
    assert (La : listed cTrackEntry cAudio) by mk_side. pose proof (lookup_ok _ t cAudio Ht La) as H. unfold got, get_child.
    destruct (elem_master _ t Ht (listed_master _ _ La)) as (i & chk & ch & ->). unfold lookup in H. cbn [children] in H. destruct (find_child mk (c_id (mk cAudio)) ch) as [a|].
    - destruct H as [H1 H2]. cbn [bind fst]. destruct (rate_ok _ a cOutputSamplingFrequency H2 ltac:(mk_side) ltac:(mk_side)) as (l1 & -> & E1). destruct (rate_ok _ a cSamplingFrequency H2 ltac:(mk_side) ltac:(mk_side)) as (l2 & -> & E2).
      cbn [bind]. eexists. split; [reflexivity|]. intros m. rewrite in_app_iff, E1, E2. split.
      + intros [[-> (j & b & Hf & Hb)]|[-> (j & b & Hf & Hb)]]; (split; [reflexivity|]); (split; [reflexivity|]); exists a; [exists cOutputSamplingFrequency|exists cSamplingFrequency]; exists j, b; (split; [exact H1|]); auto.
      + intros (-> & _ & a' & c & j & b & Hf & Hc & Hf' & Hb). pose proof (first_fun _ _ _ _ H1 Hf) as <-. destruct Hc as [->| ->]; [right|left]; (split; [reflexivity|]); exists j, b; auto.
    - destruct (mk_create_total td prof true cAudio 4 ltac:(lia)) as (a & Ha). rewrite Ha. cbn [bind fst]. destruct (created_rates td prof a Htd Ha) as [-> ->]. cbn [bind app]. exists []. split; [reflexivity|]. intros m. split; [intros []|].
      intros (_ & _ & a' & c & j & b & Hf & _). destruct (first_none _ _ _ Hf H). }
  destruct HA as (l1 & -> & E1). cbn [bind].
  assert (HW : exists l, (if prof =? P_WEBM then check_webm k name else Ok []) = Ok l /\ forall m, In m l <->
    (m = Err 0x303 /\ prof = 8 /\ k = 2 /\ ~ same_text name VORBIS_NAME /\ ~ same_text name OPUS_NAME) \/
    (m = Err 0x304 /\ prof = 8 /\ k = 1 /\ ~ same_text name VP8_NAME /\ ~ same_text name VP9_NAME) \/ (m = Err 0x302 /\ prof = 8 /\ k <> 1 /\ k <> 2)).
  { unfold P_WEBM. destruct (Z.eqb_spec prof 8) as [->|Np]; [|exists []; split; [reflexivity|]; intros m; split; [intros []|tauto]].
    destruct (webm_ok k name Hp) as (l & -> & El). exists l. split; [reflexivity|]. intros m. rewrite El. tauto. }
  destruct HW as (l2 & -> & E2). cbn [bind].
  assert (Ll : listed cTrackEntry cAttachmentLink) by mk_side.
  destruct (links_ok att Hatt (all_of cAttachmentLink t) (all_of_elem _ t _ Ht Ll)) as (l3 & -> & E3). cbn [bind]. eexists. split; [reflexivity|]. intros m.
  rewrite !in_app_iff, name_ok by exact Hp. rewrite E1, E2, E3.
  assert (X1 : all_of cAttachmentLink t <> [] <-> has_child cAttachmentLink t).
  { split.
    - intros H. destruct (all_of cAttachmentLink t) as [|x l] eqn:Q; [congruence|]. exists x. apply (all_of_ok _ t _ x Ht Ll). rewrite Q. left. reflexivity.
    - intros (x & Hx) Q. apply (all_of_ok _ t _ x Ht Ll) in Hx. rewrite Q in Hx. destruct Hx. }
  assert (X2 : (exists a i u, att = Some a /\ In (Leaf i (VInt u)) (all_of cAttachmentLink t) /\ ~ attached a u) <-> (exists a u, att = Some a /\ links_to t u /\ ~ attached a u)).
  { split.
    - intros (a & i & u & H1 & H2 & H3). exists a, u. split; [exact H1|]. split; [|exact H3]. exists i. apply (all_of_ok _ t _ _ Ht Ll). exact H2.
    - intros (a & u & H1 & (i & H2) & H3). exists a, i, u. split; [exact H1|]. split; [|exact H3]. apply (all_of_ok _ t _ _ Ht Ll). exact H2. }
  rewrite X1, X2. tauto.
Qed.
Lemma each_ok {A} (f : A -> res (list msg)) l : (forall x, In x l -> exists r, f x = Ok r) -> exists r, each f l = Ok r /\ forall m, In m r <-> exists x rx, In x l /\ f x = Ok rx /\ In m rx.
Proof.
  induction l as [|x l IH]; intros H; cbn [each]; [exists []; split; [reflexivity|]; intros m; split; [intros []|intros (? & ? & [] & _)]|].
  destruct (H x (or_introl eq_refl)) as (a & Ha). destruct (IH (fun y Hy => H y (or_intror Hy))) as (b & Hb & Ib). rewrite Ha, Hb. cbn [bind]. eexists. split; [reflexivity|]. intros m. rewrite in_app_iff, Ib. split.
  - intros [Hm|(y & ry & H1 & H2 & H3)]; [exists x, a|exists y, ry]; (split; [|auto]); [left; reflexivity|right; exact H1].
  - intros (y & ry & [<-|H1] & H2 & H3); [left; congruence|right; eauto].
Qed.
Lemma int_exists p e c : elem p e -> listed p c -> int_class c = true -> int_def_ok c = true -> exists v, int_is c e v /\ is_int64 v.
Proof. intros. destruct (got_int_ok (fun x => x) 0 p e c) as (v & _ & H'); eauto. Qed.
