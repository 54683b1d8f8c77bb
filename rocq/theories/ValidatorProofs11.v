(** Proofs about mkvalidator: the table of the tracks, the loop without end. *)
From Verif Require Import Base BaseProofs Vint EbmlId EbmlIdSpec EbmlIdProofs IntElt IntEltSpec IntEltProofs EltHead Ebml Stream Tree TreeRead TreeSpec TreeProofs Create CreateSpec CreateProofs CreateProofs2 Frame BlockTime BlockTimeProofs Cues CuesSpec CuesProofs Str StrSpec StrProofs BlockProofs2 MkSchema MkSpec MkProofs Validator ValidatorSpec ValidatorProofs ValidatorProofs5 ValidatorProofs6 ValidatorProofs7 ValidatorProofs8.

Lemma scan_ok td prof l : Forall (elem cTrackEntry) l -> Forall (fun t => exists v, child_int cTrackNumber t v /\ 0 <= v < 2 ^ 31) l -> forall mx vd m ti mx' vd', scan_tracks td prof l mx vd = Ok (m, ti, mx', vd') ->
  Forall2 (fun t x => child_int cTrackNumber t (ti_num x) /\ ti_len x = 0) l ti /\ mx <= mx' /\ Forall (fun x => ti_num x <= mx') ti /\
  (vd' = true <-> vd = true \/ exists t, In t l /\ child_int cTrackType t 1).
Proof.
  induction l as [|t l IH]; intros HE HN mx vd m ti mx' vd' H; cbn [scan_tracks] in H.
  - injection H as <- <- <- <-. split; [constructor|]. split; [lia|]. split; [constructor|]. split; [auto|]. intros [H|(t & [] & _)]. exact H.
  - apply Forall_cons_iff in HE, HN. destruct HE as [E1 E2], HN as [(v & (j & Hv) & Hb) N2]. assert (L1 : listed cTrackEntry cTrackNumber) by mk_side. assert (L2 : listed cTrackEntry cTrackType) by mk_side.
    rewrite (proj2 (lookup_first cTrackEntry t cTrackNumber _ E1 L1) Hv) in H. cbn [int_of bind] in H. cbv zeta in H. apply bind_inv in H. destruct H as (k & Ek & H). apply bind_inv in H. destruct H as (m1 & _ & H). apply bind_inv in H. destruct H as ([[[m' ti0] mx0] vd0] & Er & H). injection H as <- <- <- <-.
    assert (Hk : (match k with Some x => x =? TRACK_VIDEO | None => false end) = true <-> child_int cTrackType t 1).
    { pose proof (lookup_ok cTrackEntry t cTrackType E1 L2) as Q. destruct (lookup cTrackType t) as [d|] eqn:EL.
      - destruct Q as [Q1 Q2]. apply bind_inv in Ek. destruct Ek as (w & Ew & Ek). injection Ek as <-. destruct d as [dj [x| | | | |]|]; try discriminate. injection Ew as ->. unfold TRACK_VIDEO. rewrite Z.eqb_eq. split; [intros ->; exists dj; exact Q1|].
        intros (i1 & Q). pose proof (first_fun _ _ _ _ Q Q1) as X. congruence.
      - injection Ek as <-. split; [discriminate|]. intros (i1 & Q1). exfalso. apply (lookup_first cTrackEntry t cTrackType _ E1 L2) in Q1. congruence. }
    destruct (IH E2 N2 _ _ _ _ _ _ Er) as (I1 & I2 & I3 & I4). rewrite Z.mod_small in I2 by lia. assert (S : s32 v = v) by (apply s32_small; lia). rewrite S.
    split; [constructor; [split; [exists j; exact Hv|reflexivity]|exact I1]|]. split; [lia|]. split; [constructor; [cbn [ti_num]; lia|exact I3]|]. rewrite I4, orb_true_iff, Hk. split.
    + intros [[Q|Q]|(t' & Ht & Q)]; [auto|right; exists t; split; [left; reflexivity|exact Q]|right; exists t'; split; [right; exact Ht|exact Q]].
    + intros [Q|(t' & [<-|Ht] & Q)]; [auto|auto|right; eauto].
Qed.
Lemma no_end kf fp : 65536 <= zlen kf -> forall fuel n, 0 <= n < 65536 -> start_warnings fuel n kf fp = Fuel.
Proof.
  intros H. induction fuel as [|fuel IH]; intros n Hn; cbn [start_warnings]; replace (n <? zlen kf) with true by lia; [reflexivity|]. rewrite IH; [reflexivity|]. apply Z.mod_pos_bound. lia.
Qed.
Lemma blocks_seen cl bl : Forall2 seen cl bl -> flat_map cluster_blocks cl = concat bl.
Proof.
  induction 1 as [|c b cl bl H _ IH]; [reflexivity|]. cbn [flat_map concat]. rewrite IH. f_equal. pose proof (seen_ok c) as Q. unfold seen in *. congruence.
Qed.

(** ** The table of tracks and the blocks *)
Lemma child_fun c e v w : child_int c e v -> child_int c e w -> v = w.
Proof. intros (i & H) (j & K). pose proof (first_fun _ _ _ _ H K) as E. congruence. Qed.
Lemma table_nums l ti : Forall2 (fun t x => child_int cTrackNumber t (ti_num x) /\ ti_len x = 0) l ti -> forall n, In n (map ti_num ti) <-> nums l n.
Proof.
  induction 1 as [|t x l ti [H _] _ IH]; intros n; cbn [map In]; [split; [intros []|intros (t & [] & _)]|]. rewrite IH. split.
  - intros [<-|(u & H1 & H2)]; [exists t; split; [left; reflexivity|exact H]|exists u; split; [right; exact H1|exact H2]].
  - intros (u & [<-|H1] & H2); [left; exact (child_fun _ _ _ _ H H2)|right; exists u; auto].
Qed.
Lemma table_nodup l ti : Forall2 (fun t x => child_int cTrackNumber t (ti_num x) /\ ti_len x = 0) l ti ->
  (forall a t b t' c n, l = a ++ t :: b ++ t' :: c -> child_int cTrackNumber t n -> ~ child_int cTrackNumber t' n) -> NoDup (map ti_num ti).
Proof.
  induction 1 as [|t x l ti [H H0] HF IH]; intros N; cbn [map]; constructor.
  - rewrite (table_nums _ _ HF). intros (u & H1 & H2). apply in_split in H1. destruct H1 as (b & c & ->). exact (N [] t b u c _ eq_refl H H2).
  - apply IH. intros a u b u' c n ->. exact (N (t :: a) u b u' c n eq_refl).
Qed.
Lemma lacing_all td prof tracks mx vd m0 ti mx' vd' cl bl : Forall (elem cTrackEntry) tracks ->
  Forall (fun t => exists v, child_int cTrackNumber t v /\ 0 <= v < 2 ^ 31) tracks ->
  (forall a t b t' c n, tracks = a ++ t :: b ++ t' :: c -> child_int cTrackNumber t n -> ~ child_int cTrackNumber t' n) ->
  scan_tracks td prof tracks mx vd = Ok (m0, ti, mx', vd') -> Forall2 seen cl bl -> Forall low_track (concat bl) ->
  exists ms ti', check_lacing td prof tracks ti cl = Ok (ms, ti') /\
    Forall2 (fun t x => child_int cTrackNumber t (ti_num x) /\ ti_len x = total (ti_num x) (concat bl)) tracks ti' /\
    forall m, In m ms <->
     (m = Err 0xB2 /\ exists b, In b (concat bl) /\ ~ nums tracks (vb_track b)) \/
     (m = Err 0xB0 /\ exists b t, In b (concat bl) /\ vb_laced b = true /\ track_of tracks (vb_track b) t /\ int_is cFlagLacing t 0) \/
     (m = Err 0xB1 /\ exists b t, In b (concat bl) /\ vb_key b = false /\ track_of tracks (vb_track b) t /\ all_keys t).
Proof.
  intros HE HN HD HS HB HL. destruct (scan_ok td prof tracks HE HN _ _ _ _ _ _ HS) as (T & _ & _ & _).
  pose proof (table_nodup _ _ T HD) as ND. destruct (lacing_ok td prof tracks HE (concat bl) ti HL ND) as (ms & E & I).
  unfold check_lacing. rewrite (blocks_seen _ _ HB), E. eexists _, _. split; [reflexivity|]. split.
  - clear - T. induction T as [|t x l ti [H H0] _ IH]; cbn [map]; constructor; [|exact IH]. cbn [ti_num ti_len]. split; [exact H|lia].
  - intros m. rewrite I. pose proof (table_nums _ _ T) as TN.
    assert (K : forall n t, track_of tracks n t -> In n (map ti_num ti)).
    { intros n t (a & b & -> & Hn & _). apply TN. exists t. split; [apply in_elt|]. destruct Hn as [(i & Hi)|[Hn _]]; [exists i; exact Hi|].
      exfalso. rewrite Forall_app, Forall_cons_iff in HN. destruct HN as (_ & (v & (i & a' & b' & Ek & Ec & _) & _) & _). unfold none_of in Hn. rewrite Ek, Forall_app, Forall_cons_iff in Hn. apply (proj1 (proj2 Hn)). exact Ec. }
    split; intros [(-> & H)|[(-> & H)|(-> & H)]].
    + left. split; [reflexivity|]. destruct H as (b & H1 & H2). exists b. rewrite TN in H2. auto.
    + right; left. split; [reflexivity|]. destruct H as (b & t & H1 & _ & H). exists b, t. auto.
    + right; right. split; [reflexivity|]. destruct H as (b & t & H1 & _ & H). exists b, t. auto.
    + left. split; [reflexivity|]. destruct H as (b & H1 & H2). exists b. rewrite TN. auto.
    + right; left. split; [reflexivity|]. destruct H as (b & t & H1 & H2 & H3 & H4). exists b, t. split; [exact H1|]. split; [exact (K _ _ H3)|]. auto.
    + right; right. split; [reflexivity|]. destruct H as (b & t & H1 & H2 & H3 & H4). exists b, t. split; [exact H1|]. split; [exact (K _ _ H3)|]. auto.
Qed.

(** ** First children of a given element *)
Lemma ofb_ok c d : ofb c d = true <-> of_class c d.
Proof. unfold ofb, of_class. destruct (e_kind (einfo d)) as [x|x]; [rewrite Z.eqb_eq; split; congruence|split; discriminate]. Qed.
Lemma first_find c e d : find (ofb c) (kids e) = Some d -> first_of c e d.
Proof.
  unfold first_of. induction (kids e) as [|x l IH]; cbn [find]; [discriminate|]. destruct (ofb c x) eqn:E.
  - intros [= <-]. exists [], l. split; [reflexivity|]. split; [apply ofb_ok; exact E|constructor].
  - intros H. destruct (IH H) as (a & b & -> & H1 & H2). exists (x :: a), b. split; [reflexivity|]. split; [exact H1|]. constructor; [rewrite <- ofb_ok, E; discriminate|exact H2].
Qed.
Lemma none_find c e : find (ofb c) (kids e) = None -> none_of c e.
Proof.
  unfold none_of. induction (kids e) as [|x l IH]; cbn [find]; [constructor|]. destruct (ofb c x) eqn:E; [discriminate|]. intros H. constructor; [rewrite <- ofb_ok, E; discriminate|auto].
Qed.
Lemma int_find c e v : match find (ofb c) (kids e) with Some (Leaf _ (VInt x)) => x =? v | Some _ => false | None => default_int c =? v end = true -> int_is c e v.
Proof.
  destruct (find (ofb c) (kids e)) as [[i [x| | | | |]|]|] eqn:E; try discriminate.
  - intros H. apply Z.eqb_eq in H. subst x. left. exists i. apply first_find. exact E.
  - intros H. right. split; [apply none_find; exact E|]. apply Z.eqb_eq in H. congruence.
Qed.
Lemma kids_all p e c : elem p e -> listed p c -> all_of c e = kids_of c e.
Proof.
  intros He Hl. unfold all_of, kids_of. rewrite children_kids. apply filter_ext_in. intros d Hd. apply Bool.eq_true_iff_eq. rewrite ofb_ok, <- (child_iff p e c d He Hl Hd). unfold is_type. apply Z.eqb_eq.
Qed.
Lemma cues_ok s g inf cues : g_info g = Some inf -> elem cInfo inf -> elem cCues cues -> int_is cTimestampScale inf s -> scale_ok s ->
  g_clusters g <> [] -> Forall (timed_cluster s) (g_clusters g) ->
  Forall (fun e => exists t n p, is_cue mk (mkCue e (Some s)) t n p /\ n < 2 ^ 15) (kids_of cCuePoint cues) ->
  exists r, check_cues g cues = Ok r /\ forall m, In m r <->
    (m = Err 0x312 /\ exists e t n p, In e (kids_of cCuePoint cues) /\ is_cue mk (mkCue e (Some s)) t n p /\ forall c, In c (g_clusters g) -> ~ points_at s t n c) \/
    (m = Warn 0x311 /\ exists a e e' b t n p t' n' p', kids_of cCuePoint cues = a ++ e :: e' :: b /\ is_cue mk (mkCue e (Some s)) t n p /\ is_cue mk (mkCue e' (Some s)) t' n' p' /\ t' < t /\ t <> INVALID_TIMESTAMP).
Proof.
  intros Hg Hi Hc Hs Hk Hn HT HL. unfold check_cues. rewrite Hg. replace (zlen (g_clusters g) =? 0) with false by (destruct (g_clusters g); [congruence|rewrite zlen_cons; pose proof (zlen_nonneg l); lia]).
  assert (LI : listed cInfo cTimestampScale) by mk_side. assert (LC : listed cCues cCuePoint) by mk_side. rewrite (kids_all _ _ _ Hc LC).
  assert (SC : exists sc, scale_of inf = Ok sc /\ seg_scale sc = seg_scale (Some s)).
  { unfold scale_of. pose proof (lookup_ok cInfo inf cTimestampScale Hi LI) as Q. destruct (lookup cTimestampScale inf) as [d|] eqn:EL.
    - destruct Q as [Q _]. destruct Hs as [(i & Hs)|[Hs _]]; [|destruct (first_none _ _ _ Q Hs)]. pose proof (first_fun _ _ _ _ Q Hs) as E. subst d. exists (Some s). split; reflexivity.
    - exists None. split; [reflexivity|]. destruct Hs as [(i & Hs)|[_ ->]]; [apply (lookup_first cInfo inf cTimestampScale _ Hi LI) in Hs; congruence|]. vm_compute. reflexivity. }
  destruct SC as (sc & -> & ES). cbn [bind].
  assert (EQ : forall e t n p, is_cue mk (mkCue e sc) t n p <-> is_cue mk (mkCue e (Some s)) t n p). { intros e t n p. unfold is_cue. cbn [q_elt q_seg]. rewrite ES. reflexivity. }
  destruct (cue_points_ok s sc (g_clusters g) Hk HT (kids_of cCuePoint cues) INVALID_TIMESTAMP) as (r & E & I).
  { eapply Forall_impl; [|exact HL]. cbv beta. intros e (t & n & p & H1 & H2). exists t, n, p. rewrite EQ. auto. }
  exists r. split; [exact E|]. intros m. rewrite I. split.
  - intros [(-> & e & t & n & p & H1 & H2 & H3)|(-> & [(_ & _ & _ & _ & _ & _ & _ & _ & H)|(a & e & e' & b & t & n & p & t' & n' & p' & H1 & H2 & H3 & H4)])]; [|congruence|].
    + left. split; [reflexivity|]. exists e, t, n, p. rewrite <- EQ. auto.
    + right. split; [reflexivity|]. exists a, e, e', b, t, n, p, t', n', p'. rewrite <- !EQ. auto.
  - intros [(-> & e & t & n & p & H1 & H2 & H3)|(-> & a & e & e' & b & t & n & p & t' & n' & p' & H1 & H2 & H3 & H4)].
    + left. split; [reflexivity|]. exists e, t, n, p. rewrite EQ. auto.
    + right. split; [reflexivity|]. right. exists a, e, e', b, t, n, p, t', n', p'. rewrite !EQ. auto.
Qed.
