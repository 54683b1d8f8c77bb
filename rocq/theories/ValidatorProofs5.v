(** Proofs about mkvalidator: seek heads, unknown elements, positions of clusters. *)
From Verif Require Import Base BaseProofs Vint EbmlId EbmlIdSpec EbmlIdProofs IntElt IntEltSpec IntEltProofs EltHead Ebml Stream Tree TreeRead TreeSpec TreeProofs Create CreateSpec CreateProofs Frame BlockTime BlockTimeProofs Cues CuesSpec MkSchema MkSpec MkProofs Validator ValidatorSpec ValidatorProofs ValidatorProofs2.

Lemma id_fun d id id' : id_encodes d id -> id_encodes d id' -> id = id'.
Proof. intros (_ & _ & H) (_ & _ & H'). congruence. Qed.
Lemma leads_fun h e id p id' p' : leads h e id p -> leads h e id' p' -> id = id' /\ p = p'.
Proof.
  intros [(i & d & H1 & H2) (j & r & H3 & _ & ->)] [(i' & d' & H1' & H2') (j' & r' & H3' & _ & ->)]. pose proof (first_fun _ _ _ _ H1 H1') as Q. assert (d = d') as <- by congruence.
  pose proof (first_fun _ _ _ _ H3 H3') as Q'. assert (r = r') as <- by congruence. split; [eapply id_fun; eassumption|reflexivity].
Qed.
Lemma point_pos_ok h e : seg_head h -> plain_entry h e ->
  (none_of cSeekPosition e /\ point_pos h e = Ok INVALID_FILEPOS) \/ (exists i r, first_of cSeekPosition e (Leaf i (VInt r)) /\ 0 <= r < 2 ^ 62 /\ point_pos h e = Ok (position_data h + r)).
Proof.
  intros [Hk Hp] (He & H & _). assert (L : listed cSeek cSeekPosition) by mk_side. unfold point_pos. destruct H as [H|(i & r & H & Hr)].
  - left. split; [exact H|]. rewrite (proj2 (lookup_none _ _ _ He L) H). reflexivity.
  - right. exists i, r. split; [exact H|]. split; [exact Hr|]. rewrite (proj2 (lookup_first _ _ _ _ He L) H). cbn [int_of bind]. replace (r =? INVALID_FILEPOS) with false by (unfold INVALID_FILEPOS; lia).
    unfold eid_of. rewrite Hk. cbn [kind_id]. rewrite Z.eqb_refl. rewrite s64_small by lia. f_equal. lia.
Qed.
Lemma point_id_ok h e : plain_entry h e ->
  (no_id e /\ point_id e = Ok 0) \/ (exists i d id, first_of cSeekID e (Leaf i (VBin d)) /\ id_encodes d id /\ id <> 0 /\ point_id e = Ok id).
Proof.
  intros (He & _ & H). assert (L : listed cSeek cSeekID) by mk_side. unfold point_id, no_id. destruct H as [H|[(i & H)|(i & d & id & H & Hid)]].
  - left. split; [left; exact H|]. rewrite (proj2 (lookup_none _ _ _ He L) H). reflexivity.
  - left. split; [right; exists i; exact H|]. rewrite (proj2 (lookup_first _ _ _ _ He L) H). reflexivity.
  - right. exists i, d, id. split; [exact H|]. split; [exact Hid|]. pose proof Hid as (_ & (H1 & H2) & _). assert (1 <= 2 ^ (7 * zlen d)) by (pose proof (Z.pow_pos_nonneg 2 (7 * zlen d)); lia). split; [lia|].
    rewrite (proj2 (lookup_first _ _ _ _ He L) H). pose proof (buffer_to_id_ok d id [] Hid) as B. rewrite app_nil_r in B. destruct d as [|x d]; [change (zlen (@nil Z)) with 0 in H1; lia|]. rewrite B. reflexivity.
Qed.
Definition answer (s : seg) (main : bool) (head : elt) (id p : Z) : list msg * list Z :=
  match find (fun r => c_id (mk (fst (fst r))) =? id) (once_refs s) with
  | Some (c, found, k) => (check_once found k p, [c])
  | None =>
      if id =? c_id (mk cSeekHead) then
        if pos head =? p then ([Err 0x6E], [])
        else if main then (match g_seek2 s with None => [Err 0x6F] | Some _ => [] end, [cSeekHead])
        else (match g_seek s with Some h => when (negb (p =? pos h)) (Err 0x70) | None => [] end, [])
      else if id =? c_id (mk cCluster) then
        (when (negb (existsb (fun c => pos (vc_elt c) =? p) (g_clusters s)) && negb (zlen (g_clusters s) =? 0)) (Err 0x71), [])
      else ([Warn 0x860], [])
  end.
Lemma point_ok s main head e : seg_head (g_head s) -> plain_entry (g_head s) e ->
  (no_position e /\ check_point s main head e = Ok ([Err 0x60], []) /\ forall id p, ~ leads (g_head s) e id p) \/
  (~ no_position e /\ no_id e /\ check_point s main head e = Ok ([Err 0x61], []) /\ forall id p, ~ leads (g_head s) e id p) \/
  exists id p, leads (g_head s) e id p /\ check_point s main head e = Ok (answer s main head id p).
Proof.
  intros Hh He. unfold check_point, no_position. destruct (point_pos_ok _ e Hh He) as [[H1 H2]|(i & r & H1 & Hr & H2)]; rewrite H2; cbn [bind].
  - left. split; [exact H1|]. destruct (point_id_ok _ e He) as [[_ H3]|(j & d & id & _ & _ & _ & H3)]; rewrite H3; cbn [bind]; rewrite Z.eqb_refl; (split; [reflexivity|]); intros ? ? (_ & j' & r & H4 & _); destruct (first_none _ _ _ H4 H1).
  - right. assert (Hz : (position_data (g_head s) + r =? INVALID_FILEPOS) = false) by (destruct Hh; unfold INVALID_FILEPOS; lia).
    destruct (point_id_ok _ e He) as [[H3 H4]|(j & d & id & H3 & H4 & H5 & H6)]; [rewrite H4|rewrite H6]; cbn [bind]; rewrite Hz.
    + left. split; [intros H; destruct (first_none _ _ _ H1 H)|]. split; [exact H3|]. split; [reflexivity|]. intros id p [(j & d & H5 & H6) _]. destruct H3 as [H3|(j' & H3)]; [destruct (first_none _ _ _ H5 H3)|].
      pose proof (first_fun _ _ _ _ H3 H5) as Q. assert (d = []) as -> by congruence. destruct H6 as (_ & (H6 & _) & _). change (zlen (@nil Z)) with 0 in H6. lia.
    + right. exists id, (position_data (g_head s) + r). split; [|replace (id =? 0) with false by lia; reflexivity]. split; [exists j, d; auto|]. exists i, r. auto.
Qed.
Lemma once_in s c f : once_found s c f <-> exists k, In (c, f, k) (once_refs s).
Proof.
  unfold once_found, once_refs. cbn [In]. split.
  - intros H. decompose [and or] H; subst; eexists; [left|right; left|right; right; left|do 3 right; left|do 4 right; left|do 5 right; left]; reflexivity.
  - intros (k & H). decompose [or] H; try contradiction; match goal with H : (_, _, _) = _ |- _ => injection H as <- <- _ end; tauto.
Qed.
Lemma once_fun s c f f' : once_found s c f -> once_found s c f' -> f = f'.
Proof.
  unfold once_found. intros H H'. decompose [and or] H; subst; decompose [and or] H'; subst; try reflexivity; match goal with H : ?a = ?b :> Z |- _ => vm_compute in H; discriminate H end.
Qed.
Lemma once_class s c f : once_found s c f -> inside c = true /\ c <> cSeekHead /\ c <> cCluster.
Proof. unfold once_found. intros H. decompose [and or] H; subst; repeat split; vm_compute; discriminate. Qed.
Lemma err_free_when (b : bool) c : err_free (when b (Err c)) <-> b = false.
Proof. unfold err_free, when. destruct b; cbn [In]; split; intros H; try reflexivity; try discriminate; [destruct (H c); left; reflexivity|tauto]. Qed.
Lemma answer_fine s main head id p :
  err_free (fst (answer s main head id p)) <->
    (forall c f, once_found s c f -> id = c_id (mk c) -> exists x, f = Some x /\ e_epos (einfo x) = p) /\
    (id = c_id (mk cSeekHead) -> e_epos (einfo head) <> p /\
       (main = true -> g_seek2 s <> None) /\ (main = false -> forall x, g_seek s = Some x -> e_epos (einfo x) = p)) /\
    (id = c_id (mk cCluster) -> g_clusters s = [] \/ exists c, In c (g_clusters s) /\ e_epos (einfo (vc_elt c)) = p).
Proof.
  unfold answer. destruct (find _ (once_refs s)) as [[[c f] k]|] eqn:F.
  - apply find_some in F. cbn [fst] in F |- *. destruct F as [F1 F2]. apply Z.eqb_eq in F2. assert (Hc : once_found s c f) by (apply once_in; eauto). destruct (once_class s c f Hc) as (Ic & Nh & Nc).
    assert (A : err_free (check_once f k p) <-> exists x, f = Some x /\ e_epos (einfo x) = p).
    { unfold check_once. destruct f as [x|].
      - rewrite err_free_when. unfold pos. split; [intros H; exists x; split; [reflexivity|lia]|]. intros (y & [= <-] & H). lia.
      - split; [intros H; destruct (H k); left; reflexivity|intros (y & [=] & _)]. }
    rewrite A. split.
    + intros H. split; [|split].
      * intros c' f' H' E. assert (c = c') as -> by (apply id_inj; [exact Ic|apply (once_class s c' f' H')|congruence]). rewrite <- (once_fun _ _ _ _ Hc H'). exact H.
      * intros E. destruct Nh. apply id_inj; [exact Ic|reflexivity|congruence].
      * intros E. destruct Nc. apply id_inj; [exact Ic|reflexivity|congruence].
    + intros (H & _). apply (H c f Hc). congruence.
  - assert (N : forall c f, once_found s c f -> id <> c_id (mk c)). { intros c f H E. apply once_in in H. destruct H as (k & H). pose proof (find_none _ _ F _ H) as Q. cbn beta in Q. cbn [fst] in Q. lia. }
    assert (X : c_id (mk cSeekHead) <> c_id (mk cCluster)) by (vm_compute; discriminate).
    destruct (Z.eqb_spec id (c_id (mk cSeekHead))) as [E|E]; [|destruct (Z.eqb_spec id (c_id (mk cCluster))) as [E2|E2]].
    + destruct (Z.eqb_spec (pos head) p) as [Q|Q]; [cbn [fst]; split; [intros H; destruct (H 0x6E); left; reflexivity|intros (_ & H & _); destruct (H E) as [H' _]; destruct (H' Q)]|].
      destruct main; cbn [fst].
      * split.
        -- intros H. split; [intros c f Hc Hi; destruct (N c f Hc Hi)|]. split; [|congruence]. intros _. split; [exact Q|]. split; [|discriminate]. intros _ H2. rewrite H2 in H. destruct (H 0x6F). left. reflexivity.
        -- intros (_ & H & _). destruct (H E) as (_ & H2 & _). specialize (H2 eq_refl). destruct (g_seek2 s); [|congruence]. intros c [].
      * split.
        -- intros H. split; [intros c f Hc Hi; destruct (N c f Hc Hi)|]. split; [|congruence]. intros _. split; [exact Q|]. split; [discriminate|]. intros _ x Hx. rewrite Hx in H. apply err_free_when in H. unfold pos in H. lia.
        -- intros (_ & H & _). destruct (H E) as (_ & _ & H2). specialize (H2 eq_refl). destruct (g_seek s) as [h|]; [|intros c []]. apply err_free_when. specialize (H2 h eq_refl). unfold pos. lia.
    + cbn [fst]. rewrite err_free_when, andb_false_iff, !negb_false_iff. rewrite existsb_exists. split.
      * intros H. split; [intros c f Hc Hi; destruct (N c f Hc Hi)|]. split; [congruence|]. intros _. destruct H as [(c & H1 & H2)|H]; [right; exists c; split; [exact H1|unfold pos in H2; lia]|left].
        destruct (g_clusters s) as [|c l]; [reflexivity|]. pose proof (zlen_nonneg l). rewrite zlen_cons in H. lia.
      * intros (_ & _ & H). destruct (H E2) as [-> |(c & H1 & H2)]; [right; reflexivity|left]. exists c. split; [exact H1|unfold pos; lia].
    + cbn [fst]. split; [|intros _ c [[=]|[]]]. intros _. split; [intros c f Hc Hi; destruct (N c f Hc Hi)|]. split; congruence.
Qed.
Lemma answer_noted s main head id p c : In c (snd (answer s main head id p)) <->
  id = c_id (mk c) /\ ((exists f, once_found s c f) \/ (c = cSeekHead /\ main = true /\ e_epos (einfo head) <> p)).
Proof.
  unfold answer. destruct (find _ (once_refs s)) as [[[c' f] k]|] eqn:F.
  - apply find_some in F. cbn [fst snd In] in F |- *. destruct F as [F1 F2]. apply Z.eqb_eq in F2. assert (Hc : once_found s c' f) by (apply once_in; eauto). destruct (once_class s c' f Hc) as (Ic & Nh & Nc). split.
    + intros [<-|[]]. split; [congruence|]. left. eauto.
    + intros [E [(f' & H)|(-> & _)]]; [left; apply id_inj; [exact Ic|apply (once_class s c f' H)|congruence]|]. destruct Nh. apply id_inj; [exact Ic|reflexivity|congruence].
  - assert (N : forall c f, once_found s c f -> id <> c_id (mk c)). { intros c0 f H E. apply once_in in H. destruct H as (k & H). pose proof (find_none _ _ F _ H) as Q. cbn beta in Q. cbn [fst] in Q. lia. }
    assert (X : c_id (mk cSeekHead) <> c_id (mk cCluster)) by (vm_compute; discriminate).
    destruct (Z.eqb_spec id (c_id (mk cSeekHead))) as [E|E].
    + unfold pos. destruct (Z.eqb_spec (e_epos (einfo head)) p) as [Q|Q]; cbn [snd In]; [|destruct main; cbn [snd In]].
      * split; [intros []|]. intros [E' [(f & H)|(-> & _ & H)]]; [destruct (N _ _ H E')|congruence].
      * split; [intros [<-|[]]; split; [exact E|]; right; auto|]. intros [E' [(f & H)|(-> & _ & H)]]; [destruct (N _ _ H E')|left; reflexivity].
      * split; [intros []|]. intros [E' [(f & H)|(-> & [=] & H)]]; destruct (N _ _ H E').
    + destruct (id =? _); cbn [snd In]; (split; [intros []|]); intros [E' [(f & H)|(-> & _ & H)]]; try (destruct (N _ _ H E')); congruence.
Qed.
Lemma answer_odd s main head id p : In (Warn 0x860) (fst (answer s main head id p)) <-> Forall (fun c => id <> c_id (mk c)) [cInfo; cTracks; cCues; cTags; cChapters; cAttachments; cSeekHead; cCluster].
Proof.
  unfold answer. destruct (find _ (once_refs s)) as [[[c' f] k]|] eqn:F.
  - apply find_some in F. cbn [fst] in F |- *. destruct F as [F1 F2]. apply Z.eqb_eq in F2. assert (Hc : once_found s c' f) by (apply once_in; eauto). split.
    + intros H. exfalso. unfold check_once in H. destruct f; [unfold when in H; destruct (negb _); [|destruct H]|]; destruct H as [[=]|[]].
    + intros H. exfalso. rewrite Forall_forall in H. apply (H c'); [|congruence]. unfold once_found in Hc. cbn [In]. decompose [and or] Hc; subst; tauto.
  - assert (N : forall c f, once_found s c f -> id <> c_id (mk c)). { intros c0 f H E. apply once_in in H. destruct H as (k & H). pose proof (find_none _ _ F _ H) as Q. cbn beta in Q. cbn [fst] in Q. lia. }
    destruct (Z.eqb_spec id (c_id (mk cSeekHead))) as [E|E]; [|destruct (Z.eqb_spec id (c_id (mk cCluster))) as [E2|E2]]; cbn [fst].
    + split.
      * intros H. exfalso. destruct (pos head =? p); [destruct H as [[=]|[]]|]. destruct main; cbn [fst] in H; [destruct (g_seek2 s)|destruct (g_seek s); [unfold when in H; destruct (negb _)|]]; cbn [In] in H; decompose [or] H; try contradiction; discriminate.
      * intros H. exfalso. rewrite Forall_forall in H. apply (H cSeekHead); [cbn [In]; tauto|exact E].
    + split.
      * intros H. exfalso. unfold when in H. destruct (_ && _); cbn [In] in H; decompose [or] H; try contradiction; discriminate.
      * intros H. exfalso. rewrite Forall_forall in H. apply (H cCluster); [cbn [In]; tauto|exact E2].
    + split; [intros _|intros _; left; reflexivity]. rewrite !Forall_cons_iff. unfold once_found in N. repeat split; try assumption; try (eapply N; tauto). constructor.
Qed.
(** The loop. *)
Lemma points_ok s main head l : seg_head (g_head s) -> Forall (plain_entry (g_head s)) l -> exists m r, check_points s main head l = Ok (m, r) /\
  (err_free m <-> Forall (entry_fine s main head) l) /\
  (In (Warn 0x860) m <-> exists e id p, In e l /\ leads (g_head s) e id p /\ Forall (fun c => id <> c_id (mk c)) [cInfo; cTracks; cCues; cTags; cChapters; cAttachments; cSeekHead; cCluster]) /\
  (forall c, In c r <-> exists e p, In e l /\ leads (g_head s) e (c_id (mk c)) p /\ ((exists f, once_found s c f) \/ (c = cSeekHead /\ main = true /\ e_epos (einfo head) <> p))) /\ ~ In (Warn 0x861) m.
Proof.
  intros Hh. induction l as [|e l IH]; intros HF; cbn [check_points].
  - exists [], []. split; [reflexivity|]. split; [split; [constructor|intros _ c []]|]. split; [split; [intros []|intros (? & ? & ? & [] & _)]|]. split; [|intros []]. intros c. split; [intros []|intros (? & ? & [] & _)].
  - apply Forall_cons_iff in HF. destruct HF as [F1 F2]. destruct (IH F2) as (m & r & -> & I1 & I2 & I3 & I4).
    assert (S : exists me re, check_point s main head e = Ok (me, re) /\ (err_free me <-> entry_fine s main head e) /\
      (In (Warn 0x860) me <-> exists id p, leads (g_head s) e id p /\ Forall (fun c => id <> c_id (mk c)) [cInfo; cTracks; cCues; cTags; cChapters; cAttachments; cSeekHead; cCluster]) /\
      (forall c, In c re <-> exists p, leads (g_head s) e (c_id (mk c)) p /\ ((exists f, once_found s c f) \/ (c = cSeekHead /\ main = true /\ e_epos (einfo head) <> p))) /\ ~ In (Warn 0x861) me).
    { destruct (point_ok s main head e Hh F1) as [(_ & H & Hn)|[(_ & _ & H & Hn)|(id & p & H & Ha)]].
      - exists [Err 0x60], []. split; [exact H|]. split; [split; [intros Q; destruct (Q 0x60); left; reflexivity|intros (id & p & Q & _); destruct (Hn _ _ Q)]|]. split; [split; [intros [[=]|[]]|intros (id & p & Q & _); destruct (Hn _ _ Q)]|].
        split; [|intros [[=]|[]]]. intros c. split; [intros []|intros (p & Q & _); destruct (Hn _ _ Q)].
      - exists [Err 0x61], []. split; [exact H|]. split; [split; [intros Q; destruct (Q 0x61); left; reflexivity|intros (id & p & Q & _); destruct (Hn _ _ Q)]|]. split; [split; [intros [[=]|[]]|intros (id & p & Q & _); destruct (Hn _ _ Q)]|].
        split; [|intros [[=]|[]]]. intros c. split; [intros []|intros (p & Q & _); destruct (Hn _ _ Q)].
      - exists (fst (answer s main head id p)), (snd (answer s main head id p)). split; [rewrite Ha; destruct (answer s main head id p); reflexivity|]. split; [|split; [|split]].
        + rewrite answer_fine. unfold entry_fine. split; [intros Q; exists id, p; auto|]. intros (id' & p' & Q & R). destruct (leads_fun _ _ _ _ _ _ H Q) as [-> ->]. exact R.
        + rewrite answer_odd. split; [intros Q; exists id, p; auto|]. intros (id' & p' & Q & R). destruct (leads_fun _ _ _ _ _ _ H Q) as [-> ->]. exact R.
        + intros c. rewrite answer_noted. split; [intros [-> Q]; exists p; auto|]. intros (p' & Q & R). destruct (leads_fun _ _ _ _ _ _ H Q) as [-> ->]. auto.
        + unfold answer, check_once. destruct (find _ _) as [[[c f] k]|]; cbn [fst]; [destruct f|]; unfold when; repeat match goal with |- context [if ?b then _ else _] => destruct b; cbn [fst] | |- context [match ?o with Some _ => _ | None => _ end] => destruct o; cbn [fst] end; cbn [In]; intros Q; decompose [or] Q; try contradiction; discriminate. }
    destruct S as (me & re & -> & S1 & S2 & S3 & S4). cbn [bind fst snd]. exists (me ++ m), (re ++ r). split; [reflexivity|]. split; [|split; [|split]].
    + rewrite Forall_cons_iff, <- S1, <- I1. unfold err_free. split; [intros H; split; intros c Hc; apply (H c); apply in_or_app; auto|]. intros [H1 H2] c Hc. apply in_app_or in Hc. destruct Hc; [apply (H1 c)|apply (H2 c)]; assumption.
    + rewrite in_app_iff, S2, I2. split.
      * intros [(id & p & Q)|(e' & id & p & Q1 & Q2)]; [exists e|exists e']; exists id, p; (split; [|assumption]); [left; reflexivity|right; exact Q1].
      * intros (e' & id & p & [<-|Q1] & Q2); [left; eauto|right; eauto].
    + intros c. rewrite in_app_iff, S3, I3. split.
      * intros [(p & Q)|(e' & p & Q1 & Q2)]; [exists e|exists e']; exists p; (split; [|assumption]); [left; reflexivity|right; exact Q1].
      * intros (e' & p & [<-|Q1] & Q2); [left; eauto|right; eauto].
    + rewrite in_app_iff. tauto.
Qed.
Lemma unref_in found c l m : In m (unreferenced found c l) <-> m = Warn 0x861 /\ found <> None /\ ~ In c l.
Proof.
  unfold unreferenced, noted. destruct found as [x|]; [|split; [intros []|intros (_ & H & _); congruence]]. unfold when. destruct (existsb (Z.eqb c) l) eqn:Q; cbn [negb In].
  - apply existsb_exists in Q. destruct Q as (y & Hy & E). apply Z.eqb_eq in E. subst y. split; [intros []|tauto].
  - split.
    + intros [<-|[]]. split; [reflexivity|]. split; [discriminate|]. intros H. assert (existsb (Z.eqb c) l = true) by (apply existsb_exists; exists c; split; [exact H|apply Z.eqb_refl]). congruence.
    + intros (-> & _). left. reflexivity.
Qed.
Lemma seek_ok s main head : seg_head (g_head s) -> elem cSeekHead head -> Forall (plain_entry (g_head s)) (all_of cSeek head) -> exists l, check_seek_head s main head = Ok l /\
  (err_free l <-> forall e, In e (kids head) -> of_class cSeek e -> entry_fine s main head e) /\
  (In (Warn 0x860) l <-> odd_entry s head) /\
  (In (Warn 0x861) l <-> main = true /\ ((exists c x, once_found s c (Some x) /\ ~ referenced s head c) \/ (g_seek2 s <> None /\ ~ referenced s head cSeekHead))).
Proof.
  intros Hh He HF. destruct (points_ok s main head _ Hh HF) as (m & r & Hp & P1 & P2 & P3 & P4). unfold check_seek_head. rewrite Hp. cbn [bind].
  assert (L : listed cSeekHead cSeek) by mk_side. pose proof (fun e => all_of_ok _ head cSeek e He L) as HA.
  assert (R : forall c, (exists f, once_found s c f) \/ (c = cSeekHead /\ main = true) -> (In c r <-> referenced s head c)).
  { intros c Hc. rewrite P3. unfold referenced. split.
    - intros (e & p & Q1 & Q2 & Q3). apply HA in Q1. exists e, p. split; [apply Q1|]. split; [apply Q1|]. split; [exact Q2|]. destruct Q3 as [(f & Hf)|(_ & _ & Q3)]; [|auto]. intros ->. destruct (once_class _ _ _ Hf) as (_ & N & _). congruence.
    - intros (e & p & Q1 & Q2 & Q3 & Q4). exists e, p. split; [apply HA; auto|]. split; [exact Q3|]. destruct Hc as [Hc|[-> ->]]; [left; exact Hc|right; auto]. }
  set (U := unreferenced (g_info s) cInfo r ++ unreferenced (g_tracks s) cTracks r ++ unreferenced (g_cues s) cCues r ++ unreferenced (g_tags s) cTags r ++ unreferenced (g_chapters s) cChapters r ++ unreferenced (g_att s) cAttachments r ++ unreferenced (g_seek2 s) cSeekHead r).
  assert (HU : forall x, In x U -> x = Warn 0x861) by (intros x Hx; unfold U in Hx; rewrite !in_app_iff, !unref_in in Hx; tauto).
  assert (HU2 : In (Warn 0x861) U <-> (exists c x, once_found s c (Some x) /\ ~ In c r) \/ (g_seek2 s <> None /\ ~ In cSeekHead r)).
  { assert (HO : (exists c x, once_found s c (Some x) /\ ~ In c r) <-> exists c f, once_found s c f /\ f <> None /\ ~ In c r).
    { split; [intros (c & x & Q1 & Q2); exists c, (Some x); split; [exact Q1|]; split; [discriminate|exact Q2]|]. intros (c & [x|] & Q1 & Q2 & Q3); [eauto|congruence]. }
    rewrite HO. unfold U. rewrite !in_app_iff, !unref_in. unfold once_found. split.
    - intros Q. decompose [and or] Q; [left; exists cInfo, (g_info s)|left; exists cTracks, (g_tracks s)|left; exists cCues, (g_cues s)|left; exists cTags, (g_tags s)|left; exists cChapters, (g_chapters s)|left; exists cAttachments, (g_att s)|right]; tauto.
    - intros [(c & f & Q1 & Q2 & Q3)|Q]; [|tauto]. decompose [and or] Q1; subst; tauto. }
  exists (if main then m ++ U else m). split; [unfold U; destruct main; reflexivity|].
  assert (E1 : Forall (entry_fine s main head) (all_of cSeek head) <-> forall e, In e (kids head) -> of_class cSeek e -> entry_fine s main head e).
  { rewrite Forall_forall. split; [intros Q e Q1 Q2; apply Q; apply HA; auto|intros Q e Q1; apply HA in Q1; apply Q; apply Q1]. }
  assert (E2 : In (Warn 0x860) m <-> odd_entry s head).
  { rewrite P2. unfold odd_entry. split; [intros (e & id & p & Q1 & Q2); apply HA in Q1; exists e, id, p; tauto|]. intros (e & id & p & Q1 & Q2 & Q3); exists e, id, p. split; [apply HA; auto|exact Q3]. }
  rewrite <- E1, <- E2, <- P1. destruct main.
  - split; [|split].
    + unfold err_free. split; intros H c Hc; apply (H c); [apply in_or_app; left; exact Hc|]. apply in_app_or in Hc. destruct Hc as [Hc|Hc]; [exact Hc|]. apply HU in Hc. discriminate.
    + rewrite in_app_iff. split; [intros [H|H]; [exact H|apply HU in H; discriminate]|tauto].
    + rewrite in_app_iff, HU2. split.
      * intros [H|[(c & x & Q1 & Q2)|[Q1 Q2]]]; [contradiction|split; [reflexivity|left]; exists c, x; (split; [exact Q1|]); rewrite <- R; eauto|split; [reflexivity|right]; split; [exact Q1|]; rewrite <- R; auto].
      * intros [_ [(c & x & Q1 & Q2)|[Q1 Q2]]]; right; [left; exists c, x; split; [exact Q1|]; rewrite R; eauto|right; split; [exact Q1|]; rewrite R; auto].
  - split; [reflexivity|]. split; [reflexivity|]. split; [contradiction|]. intros [[=] _].
Qed.

(** Unknown elements. *)
Fixpoint unk_list (l : list elt) (void : Z) : list msg * Z :=
  match l with
  | [] => ([], void)
  | d :: l =>
      match class_of d with
      | KDummy => let '(m, v) := unk_list l void in (Warn 12 :: m, v)
      | KVoid => let i := einfo d in unk_list l (full_size (eid_of mk i) (e_dsize i) (e_szlen i) (e_fin i))
      | KMaster => let '(m, v) := check_unknown d in let '(m', v') := unk_list l (void + v) in (m ++ m', v')
      | _ => unk_list l void
      end
  end.
Lemma check_unknown_list i chk ch : check_unknown (Master i chk ch) = unk_list ch 0.
Proof.
  cbn [check_unknown]. generalize 0. induction ch as [|d ch IH]; intros v; [reflexivity|]. cbn [unk_list]. destruct (class_of d); try apply IH; [destruct (check_unknown d) as [m w]|]; rewrite IH; reflexivity.
Qed.
Lemma unknown_leaf i v : ~ unknown_in (Leaf i v).
Proof. intros (m & d & n & Hw & Hd & _). inversion Hw; subst. destruct Hd. Qed.
Lemma unknown_master i chk ch : unknown_in (Master i chk ch) <-> exists d, In d ch /\ ((exists n, e_kind (einfo d) = Dummy n) \/ unknown_in d).
Proof.
  split.
  - intros (m & d & n & Hw & Hd & Hn). inversion Hw; subst; [exists d; split; [exact Hd|left; eauto]|]. exists d0. split; [assumption|]. right. exists m, d, n. auto.
  - intros (d & Hd & [(n & Hn)|(m & x & n & Hw & Hx & Hn)]); [exists (Master i chk ch), d, n|exists m, x, n]; (split; [|auto]); [constructor|econstructor; eassumption].
Qed.
Lemma unknown_ok e : shaped e -> forall m, In m (fst (check_unknown e)) <-> m = Warn 12 /\ unknown_in e.
Proof.
  intros H. induction H as [i v c Hk Hc Hl|i chk ch p Hk HK HF IH] using shaped_ind2; intros m.
  - split; [intros []|]. intros [_ H]. destruct (unknown_leaf _ _ H).
  - rewrite check_unknown_list, unknown_master. generalize 0. revert HF IH. induction ch as [|d ch IHc]; intros HF IH v; cbn [unk_list].
    + split; [intros []|intros (_ & ? & [] & _)].
    + apply Forall_cons_iff in HF. destruct HF as [F1 F2]. apply Forall_cons_iff in IH. destruct IH as [I1 I2]. specialize (IHc F2 I2).
      assert (Skip : forall v', ~ ((exists n, e_kind (einfo d) = Dummy n) \/ unknown_in d) -> (In m (fst (unk_list ch v')) <-> m = Warn 12 /\ exists d', In d' (d :: ch) /\ ((exists n, e_kind (einfo d') = Dummy n) \/ unknown_in d'))).
      { intros v' Hn. rewrite IHc. split; intros (H1 & x & H2 & H3); (split; [exact H1|]); exists x; (split; [|exact H3]); [right; exact H2|]. destruct H2 as [<-|H2]; [contradiction|exact H2]. }
      destruct F1 as [(j & w & n & -> & Hd & _)|F1].
      * unfold class_of. cbn [einfo]. rewrite Hd. cbn [kind_class]. pose proof (IHc v) as Q. destruct (unk_list ch v) as [m' v']. cbn [fst In] in *. rewrite Q. split.
        -- intros [<-|(-> & x & H2 & H3)]; (split; [reflexivity|]); [exists (Leaf j w); split; [left; reflexivity|left; exists n; exact Hd]|exists x; split; [right; exact H2|exact H3]].
        -- intros (-> & x & H2 & H3). left. reflexivity.
      * destruct d as [j w|j k jch].
        -- assert (Hn : ~ ((exists n, e_kind j = Dummy n) \/ unknown_in (Leaf j w))).
           { inversion F1; subst. intros [(n & Hn)|Hn]; [congruence|destruct (unknown_leaf _ _ Hn)]. }
           unfold class_of. cbn [einfo]. inversion F1 as [? ? c Hkj Hin Hlf|]; subst. rewrite Hkj. cbn [kind_class]. destruct (c_class (mk c)) eqn:K; try (apply Skip; exact Hn).
           ++ exfalso. unfold leaf_ok in Hlf. rewrite K in Hlf. exact Hlf.
           ++ destruct (known_dummy c Hin K).
        -- inversion F1 as [|? ? ? c Hkj HKj HFj]; subst. unfold class_of. cbn [einfo]. rewrite Hkj. cbn [kind_class]. rewrite HKj. specialize (I1 F1 m). destruct (check_unknown (Master j k jch)) as [m1 v1]. pose proof (IHc (v + v1)) as Q. destruct (unk_list ch (v + v1)) as [m2 v2].
           cbn [fst] in *. rewrite in_app_iff, I1, Q. split.
           ++ intros [[-> H1]|(-> & x & H2 & H3)]; (split; [reflexivity|]); [exists (Master j k jch); split; [left; reflexivity|right; exact H1]|exists x; split; [right; exact H2|exact H3]].
           ++ intros (-> & x & [<-|H2] & H3); [left; split; [reflexivity|]|right; split; [reflexivity|]; eauto]. destruct H3 as [(n & H3)|H3]; [cbn [einfo] in H3; congruence|exact H3].
Qed.
(** Voids. *)
Fixpoint void_list (l : list elt) : Z := match l with [] => 0 | d :: l => void_size d + voids d + void_list l end.
Lemma voids_list i chk ch : voids (Master i chk ch) = void_list ch.
Proof. reflexivity. Qed.
Lemma void_class c : inside c = true -> c_class (mk c) = KVoid -> c = cEbmlVoid.
Proof.
  intros Hc K. pose proof (mk_all (fun c x => match c_class x with KVoid => c =? cEbmlVoid | _ => true end) ltac:(vm_compute; reflexivity) c Hc) as T. cbn beta in T. rewrite K in T. lia.
Qed.
Lemma void_ok e : shaped e -> void_first e -> snd (check_unknown e) = voids e.
Proof.
  intros H. induction H as [i v c Hk Hc Hl|i chk ch p Hk HK HF IH] using shaped_ind2; intros HV; [reflexivity|]. rewrite check_unknown_list, voids_list.
  assert (Tail : forall l, Forall (fun d => foreign p d \/ shaped d) l -> Forall (fun d => shaped d -> void_first d -> snd (check_unknown d) = voids d) l -> Forall (fun x => ~ of_class cEbmlVoid x /\ void_first x) l -> forall v, snd (unk_list l v) = v + void_list l).
  { induction l as [|d l IHl]; intros G1 G2 G3 v; cbn [unk_list void_list]; [cbn [snd]; lia|]. apply Forall_cons_iff in G1, G2, G3. destruct G1 as [G1 G1'], G2 as [G2 G2'], G3 as [[G3 G4] G3']. specialize (IHl G1' G2' G3').
    destruct G1 as [(j & w & n & -> & Hd & _)|G1].
    - unfold class_of, void_size. cbn [einfo voids]. rewrite Hd. cbn [kind_class]. pose proof (IHl v) as Q. destruct (unk_list l v) as [m' v']. cbn [snd] in *. rewrite Q. change (c_class (mk (-1))) with KDummy. cbv iota beta. lia.
    - inversion G1 as [j w c Hkj Hin Hlf|j k jch c Hkj HKj HFj]; subst; unfold class_of, void_size; cbn [einfo]; rewrite Hkj; cbn [kind_class].
      + cbn [voids]. destruct (c_class (mk c)) eqn:K; try (rewrite IHl; lia).
        * unfold leaf_ok in Hlf. rewrite K in Hlf. destruct Hlf.
        * destruct G3. unfold of_class. cbn [einfo]. rewrite Hkj. f_equal. apply void_class; assumption.
        * destruct (known_dummy c Hin K).
      + rewrite HKj. cbv iota beta zeta. specialize (G2 G1 G4). destruct (check_unknown (Master j k jch)) as [m1 v1]. cbn [snd] in G2. pose proof (IHl (v + v1)) as Q. destruct (unk_list l (v + v1)) as [m2 v2]. cbn [snd] in *. rewrite Q, G2. lia. }
  inversion HV as [|? ?|? ? d l HVd HVl]; subst; [reflexivity|]. apply Forall_cons_iff in HF, IH. destruct HF as [F1 F2], IH as [I1 I2]. specialize (Tail l F2 I2 HVl). cbn [unk_list void_list].
  destruct F1 as [(j & w & n & -> & Hd & _)|F1].
  - unfold class_of, void_size. cbn [einfo voids]. rewrite Hd. cbn [kind_class]. pose proof (Tail 0) as Q. destruct (unk_list l 0) as [m' v']. cbn [snd] in *. rewrite Q. change (c_class (mk (-1))) with KDummy. cbv iota beta. lia.
  - inversion F1 as [j w c Hkj Hin Hlf|j k jch c Hkj HKj HFj]; subst; unfold class_of, void_size; cbn [einfo]; rewrite Hkj; cbn [kind_class].
    + cbn [voids]. destruct (c_class (mk c)) eqn:K; try (rewrite Tail; lia).
      * unfold leaf_ok in Hlf. rewrite K in Hlf. destruct Hlf.
      * destruct (known_dummy c Hin K).
    + rewrite HKj. cbv iota beta zeta. specialize (I1 F1 HVd). destruct (check_unknown (Master j k jch)) as [m1 v1]. cbn [snd] in I1. pose proof (Tail (0 + v1)) as Q. destruct (unk_list l (0 + v1)) as [m2 v2]. cbn [snd] in *. rewrite Q, I1. lia.
Qed.

(** Positions and sizes of the clusters. *)
Lemma child_int_ok p e c : elem p e -> listed p c -> int_class c = true ->
  match lookup c e with Some d => exists i v, d = Leaf i (VInt v) /\ child_int c e v /\ is_int64 v | None => forall v, ~ child_int c e v end.
Proof.
  intros He Hl Hc. pose proof (lookup_ok p e c He Hl) as H. destruct (lookup c e) as [d|].
  - destruct H as [H1 H2]. destruct (elem_int c d H2 Hc) as (i & v & -> & Hv). exists i, v. split; [reflexivity|]. split; [exists i; exact H1|exact Hv].
  - intros v (i & Hi). destruct (first_none _ _ _ Hi H).
Qed.
Lemma child_int_fun c e v v' : child_int c e v -> child_int c e v' -> v = v'.
Proof. intros (i & H) (i' & H'). pose proof (first_fun _ _ _ _ H H'). congruence. Qed.
Lemma pos_size_gen head : 0 <= position_data head < 2 ^ 62 -> forall l prev, Forall cluster_ok l -> (forall p, prev = Some p -> placed p) -> exists r, check_pos_size head prev l = Ok r /\ forall m, In m r <->
  (m = Err 0xA0 /\ prev = None /\ exists c b v, l = c :: b /\ child_int cPrevSize (vc_elt c) v) \/
  (m = Err 0xA1 /\ ((exists p c b v, prev = Some p /\ l = c :: b /\ child_int cPrevSize (vc_elt c) v /\ v <> pos (vc_elt c) - pos p) \/
                    (exists a p c b v, l = a ++ p :: c :: b /\ child_int cPrevSize (vc_elt c) v /\ v <> pos (vc_elt c) - pos (vc_elt p)))) \/
  (m = Err 0xA2 /\ exists c v, In c l /\ child_int cPosition (vc_elt c) v /\ v <> pos (vc_elt c) - position_data head).
Proof.
  intros Hh. induction l as [|c l IH]; intros prev HF Hp; cbn [check_pos_size].
  - exists []. split; [reflexivity|]. intros m. split; [intros []|]. intros [(_ & _ & c & b & v & [=] & _)|[(_ & [(p & c & b & v & _ & [=] & _)|(a & p & c & b & v & H & _)])|(_ & c & v & [] & _)]]. destruct a; discriminate.
  - apply Forall_cons_iff in HF. destruct HF as [[F1 F1'] F2]. unfold placed in F1'. fold (pos (vc_elt c)) in F1'.
    pose proof (child_int_ok _ _ cPrevSize F1 ltac:(mk_side) ltac:(mk_side)) as HS. pose proof (child_int_ok _ _ cPosition F1 ltac:(mk_side) ltac:(mk_side)) as HP.
    destruct (IH (Some (vc_elt c)) F2 ltac:(intros p [= <-]; exact F1')) as (r & Hr & Ir).
    assert (H1 : exists m1, match lookup cPrevSize (vc_elt c) with None => Ok [] | Some d => do v <- int_of d; Ok (match prev with None => [Err 0xA0] | Some p => when (negb (v =? s64 (pos (vc_elt c) - pos p))) (Err 0xA1) end) end = Ok m1 /\
      forall m, In m m1 <-> (m = Err 0xA0 /\ prev = None /\ exists v, child_int cPrevSize (vc_elt c) v) \/ (m = Err 0xA1 /\ exists p v, prev = Some p /\ child_int cPrevSize (vc_elt c) v /\ v <> pos (vc_elt c) - pos p)).
    { destruct (lookup cPrevSize (vc_elt c)) as [d|].
      - destruct HS as (i & v & -> & Hv & _). cbn [int_of bind]. eexists. split; [reflexivity|]. intros m. destruct prev as [p|].
        + specialize (Hp p eq_refl). unfold placed in Hp. fold (pos p) in Hp. rewrite s64_small by lia. unfold when. destruct (v =? pos (vc_elt c) - pos p) eqn:Q; cbn [negb In].
          * split; [intros []|]. intros [(_ & [=] & _)|(_ & p' & v' & [= <-] & Hv' & N)]. pose proof (child_int_fun _ _ _ _ Hv Hv'). lia.
          * split; [intros [<-|[]]; right; split; [reflexivity|]; exists p, v; repeat split; [exact Hv|lia]|]. intros [(_ & [=] & _)|(-> & _)]. left. reflexivity.
        + cbn [In]. split; [intros [<-|[]]; left; repeat split; eauto|]. intros [(-> & _)|(_ & p & v' & [=] & _)]. left. reflexivity.
      - eexists. split; [reflexivity|]. intros m. split; [intros []|]. intros [(_ & _ & v & Hv)|(_ & p & v & _ & Hv & _)]; destruct (HS v Hv). }
    assert (H2 : exists m2, match lookup cPosition (vc_elt c) with None => Ok [] | Some d => do v <- int_of d; Ok (when (negb (v =? s64 (pos (vc_elt c) - position_data head))) (Err 0xA2)) end = Ok m2 /\
      forall m, In m m2 <-> m = Err 0xA2 /\ exists v, child_int cPosition (vc_elt c) v /\ v <> pos (vc_elt c) - position_data head).
    { destruct (lookup cPosition (vc_elt c)) as [d|].
      - destruct HP as (i & v & -> & Hv & _). cbn [int_of bind]. eexists. split; [reflexivity|]. intros m. rewrite s64_small by lia. unfold when. destruct (v =? pos (vc_elt c) - position_data head) eqn:Q; cbn [negb In].
        + split; [intros []|]. intros (_ & v' & Hv' & N). pose proof (child_int_fun _ _ _ _ Hv Hv'). lia.
        + split; [intros [<-|[]]; split; [reflexivity|]; exists v; split; [exact Hv|lia]|]. intros (-> & _). left. reflexivity.
      - eexists. split; [reflexivity|]. intros m. split; [intros []|]. intros (_ & v & Hv & _). destruct (HP v Hv). }
    destruct H1 as (m1 & -> & E1), H2 as (m2 & -> & E2). cbn [bind]. rewrite Hr. cbn [bind]. eexists. split; [reflexivity|]. intros m. rewrite !in_app_iff, E1, E2, Ir. split.
    + intros [[(-> & -> & v & Hv)|(-> & p & v & -> & Hv & N)]|[(-> & v & Hv & N)|[(_ & [=] & _)|[(-> & [(p & c' & b & v & [= <-] & -> & Hv & N)|(a & p & c' & b & v & -> & Hv & N)])|(-> & c' & v & Hi & Hv & N)]]]].
      * left. split; [reflexivity|]. split; [reflexivity|]. exists c, l, v. auto.
      * right; left. split; [reflexivity|]. left. exists p, c, l, v. auto.
      * right; right. split; [reflexivity|]. exists c, v. split; [left; reflexivity|auto].
      * right; left. split; [reflexivity|]. right. exists [], c, c', b, v. auto.
      * right; left. split; [reflexivity|]. right. exists (c :: a), p, c', b, v. auto.
      * right; right. split; [reflexivity|]. exists c', v. split; [right; exact Hi|auto].
    + intros [(-> & -> & c' & b & v & [= <- <-] & Hv)|[(-> & [(p & c' & b & v & -> & [= <- <-] & Hv & N)|(a & p & c' & b & v & E & Hv & N)])|(-> & c' & v & [<-|Hi] & Hv & N)]].
      * left. left. eauto.
      * left. right. split; [reflexivity|]. exists p, v. auto.
      * right. right. right. left. split; [reflexivity|]. destruct a as [|x a]; injection E as -> E; [left; exists (vc_elt p), c', b, v; auto|right; exists a, p, c', b, v; auto].
      * right. left. eauto.
      * right. right. right. right. split; [reflexivity|]. exists c', v. auto.
Qed.
