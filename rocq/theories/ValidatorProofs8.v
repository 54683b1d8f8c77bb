(** Proofs about mkvalidator: cue points, and the messages of a whole run. *)
From Verif Require Import Base BaseProofs Vint EbmlId EbmlIdSpec EbmlIdProofs IntElt IntEltSpec IntEltProofs EltHead Ebml Stream Tree TreeRead TreeSpec TreeProofs Create CreateSpec CreateProofs Frame BlockTime BlockTimeProofs Cues CuesSpec CuesProofs CuesProofs2 Str StrSpec MkSchema MkSpec MkProofs Validator ValidatorSpec ValidatorProofs ValidatorProofs2 ValidatorProofs5.
From Verif Require PropCues.

(** ** Cue points *)
Lemma cue_found_ok s t n l : scale_ok s -> 0 <= n < 2 ^ 15 -> Forall (timed_cluster s) l -> exists b, cue_found t n l = Ok b /\ (b = true <-> exists c, In c l /\ points_at s t n c).
Proof.
  intros Hs Hn. induction l as [|c l IH]; intros HL; cbn [cue_found].
  - exists false. split; [reflexivity|]. split; [discriminate|]. intros (c & [] & _).
  - apply Forall_cons_iff in HL. destruct HL as [(ct & H1 & H2 & H3) H4]. destruct (PropCues.C53_first_match ct s n t _ _ H1 H2 Hs H3 Hn) as (r & -> & Hr). cbn [bind]. destruct r as [[i j]|].
    + exists true. split; [reflexivity|]. split; [|reflexivity]. intros _. destruct Hr as (l1 & kb & l2 & E & Hm & _). exists c. split; [left; reflexivity|]. exists ct, (i, j, kb). split; [exact H1|]. split; [rewrite E; apply in_elt|exact Hm].
    + destruct (IH H4) as (b & -> & Hb). exists b. split; [reflexivity|]. rewrite Hb. split; [intros (c' & Hc & H); exists c'; split; [right; exact Hc|exact H]|].
      intros (c' & [<-|Hc] & H); [exfalso|eauto]. destruct H as (ct' & p & E' & Hp & Hm). assert (ct' = ct) as -> by (destruct H1 as [? A], E' as [? B]; congruence). rewrite Forall_forall in Hr. exact (Hr _ Hp Hm).
Qed.
Lemma cue_points_ok s sc cl : scale_ok s -> Forall (timed_cluster s) cl -> forall l prev, Forall (fun e => exists t n p, is_cue mk (mkCue e sc) t n p /\ n < 2 ^ 15) l ->
  exists r, check_cue_points sc cl prev l = Ok r /\ forall m, In m r <->
    (m = Err 0x312 /\ exists e t n p, In e l /\ is_cue mk (mkCue e sc) t n p /\ forall c, In c cl -> ~ points_at s t n c) \/
    (m = Warn 0x311 /\ ((exists e b t n p, l = e :: b /\ is_cue mk (mkCue e sc) t n p /\ t < prev /\ prev <> INVALID_TIMESTAMP) \/
       exists a e e' b t n p t' n' p', l = a ++ e :: e' :: b /\ is_cue mk (mkCue e sc) t n p /\ is_cue mk (mkCue e' sc) t' n' p' /\ t' < t /\ t <> INVALID_TIMESTAMP)).
Proof.
  intros Hs Hc. induction l as [|e l IH]; intros prev HL; cbn [check_cue_points].
  - exists []. split; [reflexivity|]. intros m. split; [intros []|]. intros [(_ & ? & ? & ? & ? & [] & _)|(_ & [(? & ? & ? & ? & ? & [=] & _)|(a & ? & ? & ? & ? & ? & ? & ? & ? & ? & E & _)])]. destruct a; discriminate.
  - apply Forall_cons_iff in HL. destruct HL as [(t & n & p & Q & Hn) HL]. assert (Hn' : 0 <= n < 2 ^ 15). { split; [|exact Hn]. destruct Q as (? & ? & ? & _ & _ & _ & ? & ? & ? & _ & (? & ? & _ & -> & ?) & _). lia. }
    rewrite (cue_time_ok _ _ _ _ _ Q). cbn [bind]. rewrite (cue_track_ok _ _ _ _ _ Q). cbn [bind]. destruct (cue_found_ok s t n cl Hs Hn' Hc) as (f & -> & Hf). cbn [bind].
    destruct (IH t HL) as (r & -> & Hr). cbn [bind]. eexists. split; [reflexivity|]. intros m. rewrite !in_app_iff, Hr. clear IH Hr.
    assert (F : forall t' n' p', is_cue mk (mkCue e sc) t' n' p' -> t' = t /\ n' = n). { intros t' n' p' Q'. destruct (is_cue_fun _ _ _ _ _ _ _ _ Q Q') as (-> & -> & _). auto. }
    split.
    + intros [H|[H|[(-> & e' & t' & n' & p' & H & H')|(-> & [(e' & b & t' & n' & p' & -> & H1 & H2)|(a & e1 & e2 & b & t1 & n1 & p1 & t2 & n2 & p2 & -> & H)])]]].
      * unfold when in H. destruct (Z.ltb_spec t prev); [|destruct H]. destruct (Z.eqb_spec prev INVALID_TIMESTAMP); cbn [negb andb] in H; [destruct H|destruct H as [<-|[]]]. right. split; [reflexivity|]. left. exists e, l, t, n, p. auto.
      * destruct f; cbn [negb when] in H; [destruct H|destruct H as [<-|[]]]. left. split; [reflexivity|]. exists e, t, n, p. split; [left; reflexivity|]. split; [exact Q|]. intros c H1 H2. assert (false = true); [|discriminate]. apply Hf. eauto.
      * left. split; [reflexivity|]. exists e', t', n', p'. split; [right; exact H|exact H'].
      * right. split; [reflexivity|]. right. exists [], e, e', b, t, n, p, t', n', p'. split; [reflexivity|]. split; [exact Q|]. split; [exact H1|tauto].
      * right. split; [reflexivity|]. right. exists (e :: a), e1, e2, b, t1, n1, p1, t2, n2, p2. split; [reflexivity|exact H].
    + intros [(-> & e' & t' & n' & p' & [<-|H] & Q' & H')|(-> & [(e' & b & t' & n' & p' & [= <- <-] & Q' & H1 & H2)|(a & e1 & e2 & b & t1 & n1 & p1 & t2 & n2 & p2 & E & Q1 & Q2 & H1 & H2)])].
      * right. left. destruct (F _ _ _ Q') as [-> ->]. destruct f; [|left; reflexivity]. exfalso. destruct (proj1 Hf eq_refl) as (c & H1 & H2). exact (H' c H1 H2).
      * right. right. left. split; [reflexivity|]. exists e', t', n', p'. auto.
      * left. destruct (F _ _ _ Q') as [-> ->]. rewrite (proj2 (Z.ltb_lt _ _) H1), (proj2 (Z.eqb_neq _ _) H2). left. reflexivity.
      * right. right. right. split; [reflexivity|]. destruct a as [|x a]; injection E as -> E.
        -- left. destruct (F _ _ _ Q1) as [-> ->]. exists e2, b, t2, n2, p2. auto.
        -- right. exists a, e1, e2, b, t1, n1, p1, t2, n2, p2. auto.
Qed.

(** ** The messages of a run *)
Definition fine (m : msg) : Prop :=
  match m with Err c => 0 < c /\ (c mod 256 = 0 -> c = 0x200) | Fatal _ => False | Lost c | Warn c => 0 < c end.
Lemma bind_inv {A B} (r : res A) (k : A -> res B) y : bind r k = Ok y -> exists x, r = Ok x /\ k x = Ok y.
Proof. destruct r; cbn [bind]; try discriminate. eauto. Qed.
Lemma fine_when b m : fine m -> Forall fine (when b m).
Proof. destruct b; cbn [when]; [constructor; [assumption|constructor]|constructor]. Qed.
Ltac fine_c := cbn [fine]; vm_compute; intuition congruence.
Ltac fine_go := repeat first
  [ apply Forall_nil | assumption | apply fine_when; solve [fine_c] | apply Forall_app; split | apply Forall_cons; [solve [fine_c]|]
  | match goal with
    | |- Forall fine (if ?b then _ else _) => destruct b
    | |- Forall fine (match ?o with Some _ => _ | None => _ end) => destruct o
    end ].
Ltac binds := repeat match goal with
  | H : bind _ _ = Ok _ |- _ => apply bind_inv in H; let x := fresh "x" in let E := fresh "E" in destruct H as (x & E & H)
  | H : (let '(_, _) := ?p in _) = Ok _ |- _ => destruct p eqn:?
  | H : Ok _ = Ok _ |- _ => injection H as <-
  | H : (if ?b then _ else _) = Ok _ |- _ => destruct b eqn:?
  | H : match ?o with Some _ => _ | None => _ end = Ok _ |- _ => destruct o eqn:?
  | H : Fuel = Ok _ |- _ => discriminate H
  | H : Bad = Ok _ |- _ => discriminate H
  | H : Null = Ok _ |- _ => discriminate H
  end.
Lemma fine_unknown e : Forall fine (fst (check_unknown e)).
Proof.
  induction e as [i v|i chk ch IH] using elt_ind2; [constructor|]. rewrite check_unknown_list. generalize 0. induction ch as [|d ch IHc]; intros v; cbn [unk_list]; [constructor|]. apply Forall_cons_iff in IH. destruct IH as [I1 I2]. specialize (IHc I2).
  destruct (class_of d); try apply IHc.
  - destruct (check_unknown d) as [m w]. specialize (IHc (v + w)). destruct (unk_list ch (v + w)) as [m' w']. cbn [fst] in *. apply Forall_app. auto.
  - specialize (IHc v). destruct (unk_list ch v) as [m' w']. cbn [fst] in *. constructor; [vm_compute; reflexivity|exact IHc].
Qed.
Section V.
Context (td : Z -> Z) (prof : Z).
Lemma fine_display c v u p r : display_of c v u p = Ok r -> Forall fine (snd r).
Proof. unfold display_of. intros H. destruct (lookup c v); [|destruct (u =? UNIT_PIXELS)]; binds; cbn [snd]; fine_go. Qed.
Lemma fine_pixels dw dh pw ph l : check_pixels prof dw dh pw ph = Ok l -> Forall fine l.
Proof. unfold check_pixels. intros H. binds; fine_go. Qed.
Lemma fine_video e l : check_video td prof e = Ok l -> Forall fine l.
Proof.
  unfold check_video. cbv zeta. intros H. destruct (lookup cVideo e) as [v|]; [|injection H as <-; fine_go]. binds; repeat match goal with H : display_of _ _ _ _ = Ok _ |- _ => apply fine_display in H; cbn [snd] in H | H : check_pixels _ _ _ _ _ = Ok _ |- _ => apply fine_pixels in H end; fine_go.
Qed.
Lemma fine_rate c a l : null_rate c a = Ok l -> Forall fine l.
Proof. unfold null_rate. intros H. binds; fine_go. Qed.
Lemma fine_webm t n l : check_webm t n = Ok l -> Forall fine l.
Proof. unfold check_webm. intros H. binds; fine_go. Qed.
Lemma fine_links a ks : forall l, check_links a ks = Ok l -> Forall fine l.
Proof. induction ks as [|k ks IH]; intros l H; cbn [check_links] in H; binds; try apply IH in E1; fine_go. Qed.
Lemma fine_track a t l : check_track td prof a t = Ok l -> Forall fine l.
Proof.
  unfold check_track, check_name. intros H. binds; repeat match goal with H : null_rate _ _ = Ok _ |- _ => apply fine_rate in H | H : check_webm _ _ = Ok _ |- _ => apply fine_webm in H | H : check_links _ _ = Ok _ |- _ => apply fine_links in H end; fine_go.
Qed.
Lemma fine_each {A} (f : A -> res (list msg)) xs : (forall x l, f x = Ok l -> Forall fine l) -> forall l, each f xs = Ok l -> Forall fine l.
Proof. intros Hf. induction xs as [|x xs IH]; intros l H; cbn [each] in H; binds; try apply Hf in E; try apply IH in E0; fine_go. Qed.
Lemma fine_profile e : forall l, check_profile prof e = Ok l -> Forall fine l.
Proof.
  induction e as [i v|i chk ch IH] using elt_ind2; intros l H; cbn [check_profile] in H; [binds; fine_go|].
  apply bind_inv in H. destruct H as (r & _ & H). apply bind_inv in H. destruct H as (sub & E & H). injection H as <-. apply Forall_app. split; [fine_go|]. apply Forall_app. split.
  - apply Forall_forall. intros m Hm. apply in_map_iff in Hm. destruct Hm as (rep & <- & _). destruct rep; cbn [report_msg]; fine_c.
  - revert sub E. induction ch as [|d ch IHc]; intros sub E; [injection E as <-; constructor|]. apply Forall_cons_iff in IH. destruct IH as [I1 I2]. destruct d as [j v|j k c]; [apply (IHc I2); exact E|].
    apply bind_inv in E. destruct E as (a & Ea & E). apply bind_inv in E. destruct E as (b & Eb & E). injection E as <-. apply Forall_app. split; [apply I1; exact Ea|apply (IHc I2); exact Eb].
Qed.
Lemma ok_inj {A} (a b : A) : Ok a = Ok b -> b = a.
Proof. congruence. Qed.
Lemma fine_point s mn h e r : check_point s mn h e = Ok r -> Forall fine (fst r).
Proof.
  unfold check_point. intros H. apply bind_inv in H. destruct H as (x & _ & H). apply bind_inv in H. destruct H as (x0 & _ & H). apply ok_inj in H. subst r. destruct (x =? INVALID_FILEPOS); [cbn [fst]; fine_go|]. destruct (x0 =? 0); [cbn [fst]; fine_go|].
  destruct (find (fun r => c_id (mk (fst (fst r))) =? x0) (once_refs s)) as [[[c f] k]|] eqn:F.
  - apply find_some in F. destruct F as [F _]. cbn [fst]. unfold check_once. cbn [once_refs In] in F.
    decompose [or] F; try contradiction; match goal with H : (_, _, _) = (_, _, _) |- _ => injection H as <- <- <- end; fine_go.
  - destruct (_ =? _); [destruct (_ =? _); [cbn [fst]; fine_go|destruct mn; cbn [fst]; fine_go]|]. destruct (_ =? _); cbn [fst]; fine_go.
Qed.
Lemma fine_points s mn h es : forall r, check_points s mn h es = Ok r -> Forall fine (fst r).
Proof. induction es as [|e es IH]; intros r H; cbn [check_points] in H; binds; cbn [fst]; try apply IH in E0; try apply fine_point in E; fine_go. Qed.
Lemma fine_unref f c l : Forall fine (unreferenced f c l).
Proof. unfold unreferenced. fine_go. Qed.
Lemma fine_seek s mn h l : check_seek_head s mn h = Ok l -> Forall fine l.
Proof.
  unfold check_seek_head. intros H. apply bind_inv in H. destruct H as ([m n] & E & H). apply fine_points in E. cbn [fst] in E. injection H as <-. destruct mn; [|exact E]. repeat (apply Forall_app; split; [first [exact E|apply fine_unref]|]). apply fine_unref.
Qed.
Lemma fine_vitems tr cpos items : forall st r, video_items td prof tr cpos items st = Ok r -> Forall fine (fst r).
Proof.
  induction items as [|it items IH]; intros st r H; cbn [video_items] in H; [injection H as <-; constructor|]. destruct (item_block it) as [b|]; [|exact (IH _ _ H)].
  apply bind_inv in H. destruct H as (x & E & H). apply bind_inv in H. destruct H as (y & E' & H). injection H as <-. apply IH in E'. cbn [fst]. apply Forall_app. split; [|exact E']. clear - E. unfold video_block in E. destruct st as [kf fp]. binds; cbn [fst]; fine_go.
Qed.
Lemma fine_warnings fuel : forall n kf fp l, start_warnings fuel n kf fp = Ok l -> Forall fine l.
Proof. induction fuel as [|fuel IH]; intros n kf fp l H; cbn [start_warnings] in H; binds; try apply IH in E; fine_go. Qed.
Lemma fine_vstart fuel tr count cl : forall prev l, check_video_start td fuel prof tr count prev cl = Ok l -> Forall fine l.
Proof.
  induction cl as [|c cl IH]; intros prev l H; cbn [check_video_start] in H; [injection H as <-; constructor|]. cbv zeta in H. apply bind_inv in H. destruct H as (x & E1 & H). apply bind_inv in H. destruct H as (y & E2 & H). apply bind_inv in H. destruct H as (z & E3 & H). injection H as <-.
  apply fine_vitems in E1. apply fine_warnings in E2. apply IH in E3. fine_go.
Qed.
Lemma fine_pos head cl : forall prev l, check_pos_size head prev cl = Ok l -> Forall fine l.
Proof.
  induction cl as [|c cl IH]; intros prev l H; cbn [check_pos_size] in H; [injection H as <-; constructor|]. apply bind_inv in H. destruct H as (x & E1 & H). apply bind_inv in H. destruct H as (y & E2 & H). apply bind_inv in H. destruct H as (z & E3 & H). injection H as <-. apply IH in E3. binds; fine_go.
Qed.
Lemma fine_lacing tr bs : forall ti r, lacing_blocks td prof tr ti bs = Ok r -> Forall fine (fst r).
Proof.
  induction bs as [|b bs IH]; intros ti r H; cbn [lacing_blocks] in H; [injection H as <-; constructor|]. apply bind_inv in H. destruct H as (x & E1 & H). apply bind_inv in H. destruct H as (y & E2 & H). injection H as <-. apply IH in E2. cbn [fst]. apply Forall_app. split; [|exact E2]. clear - E1. unfold lacing_block in E1. cbv zeta in E1. binds; cbn [fst]; fine_go.
Qed.
Lemma fine_cuepts sc cl es : forall prev l, check_cue_points sc cl prev es = Ok l -> Forall fine l.
Proof. induction es as [|e es IH]; intros prev l H; cbn [check_cue_points] in H; binds; try apply IH in E2; fine_go. Qed.
Lemma fine_cues s c l : check_cues s c = Ok l -> Forall fine l.
Proof. unfold check_cues. intros H. binds; try apply fine_cuepts in H; fine_go. Qed.
Lemma fine_kept e r : check_kept prof e = Ok r -> Forall fine (fst r).
Proof.
  unfold check_kept. pose proof (fine_unknown e) as F. destruct (check_unknown e) as [mu v]. cbn [fst] in F. intros H. binds. apply fine_profile in E. cbn [fst]. fine_go.
Qed.
Lemma fine_scan ts : forall mx vd l ti mx' vd', scan_tracks td prof ts mx vd = Ok (l, ti, mx', vd') -> Forall fine l.
Proof.
  induction ts as [|t ts IH]; intros mx vd l ti mx' vd' H; cbn [scan_tracks] in H; [injection H as <- <- <- <-; constructor|]. cbv zeta in H. apply bind_inv in H. destruct H as (n & _ & H). apply bind_inv in H. destruct H as (k & _ & H). apply bind_inv in H. destruct H as (m & Em & H). apply bind_inv in H. destruct H as ([[[m' ti0] mx0] vd0] & Er & H). injection H as <- <- <- <-.
  apply IH in Er. apply Forall_app. split; [|exact Er]. destruct (match k with Some v => v =? TRACK_VIDEO | None => false end); [apply fine_video in Em; exact Em|injection Em as <-; constructor].
Qed.
(** The level 1 elements: only an end of the run makes a fatal message, and then the last one. *)
Definition ended (l : list msg) (more : bool) : Prop :=
  if more then Forall fine l else exists a c, l = a ++ [Fatal c] /\ Forall fine a /\ 0 < c /\ (c mod 256 = 0 -> c = 0x100).
Lemma fine_level1 o s x r : level1 td o prof s x = Ok r -> ended (fst r) (match snd r with Some _ => true | None => false end).
Proof.
  assert (FK : forall s e g r, keep prof s e g = Ok r -> Forall fine (fst r) /\ exists s', snd r = Some s').
  { intros s0 e g r0 H. unfold keep in H. binds. apply fine_kept in E. cbn [fst snd]. eauto. }
  assert (FF : forall c, (0 <? c) = true -> ((c mod 256 =? 0) = true -> c = 0x100) -> ended [Fatal c] false). { intros c H1 H2. exists [], c. split; [reflexivity|]. split; [constructor|]. split; [lia|]. intros E. apply H2. lia. }
  unfold level1. cbv zeta. intros H.
  repeat match goal with H : (if ?b then _ else _) = Ok _ |- _ => destruct b eqn:? end;
    try solve [injection H as <-; cbn [fst snd]; apply FF; [reflexivity|vm_compute; congruence] | (injection H as <-; cbn [fst snd ended]; fine_go) | (destruct (FK _ _ _ _ H) as [F [s' ->]]; exact F)].
  - assert (exists m g, Forall fine m /\ (do r <- keep prof s (l_elt x) g; Ok (m ++ fst r, snd r)) = Ok r) as (m & g & Hm & Hr). { destruct (g_seek (x_seg s)); [destruct (g_seek2 (x_seg s))|]; eexists _, _; (split; [|exact H]); fine_go. }
    apply bind_inv in Hr. destruct Hr as (r0 & E & Hr). injection Hr as <-. destruct (FK _ _ _ _ E) as [F [s' F2]]. cbn [fst snd]. rewrite F2. cbn [ended]. fine_go.
  - apply bind_inv in H. destruct H as (r0 & E & H). injection H as <-. destruct (FK _ _ _ _ E) as [F [s' F2]]. cbn [fst snd]. rewrite F2. cbn [ended]. fine_go.
  - apply bind_inv in H. destruct H as (r0 & E & H). apply bind_inv in H. destruct H as ([[[m ti] mx] vd] & E' & H). injection H as <-. apply fine_kept in E. apply fine_scan in E'. cbn [fst snd ended]. fine_go.
  - injection H as <-. cbn [fst snd ended]. destruct (class_of (l_elt x)); fine_go.
Qed.
Definition ends (l : list msg) : Prop := Forall fine l \/ ended l false.
Lemma ended_app a l b : Forall fine a -> ended l b -> ended (a ++ l) b.
Proof.
  intros Ha. destruct b; cbn [ended]; [intros H; apply Forall_app; auto|]. intros (p & c & -> & H1 & H2). exists (a ++ p), c. rewrite app_assoc. split; [reflexivity|]. split; [apply Forall_app; auto|exact H2].
Qed.
Lemma ends_app a l : Forall fine a -> ends l -> ends (a ++ l).
Proof. intros Ha [H|H]; [left; apply Forall_app; auto|right; apply ended_app; assumption]. Qed.
Lemma fine_level1s o xs : forall s r, level1s td o prof s xs = Ok r -> ended (fst r) (match snd r with Some _ => true | None => false end).
Proof.
  induction xs as [|x xs IH]; intros s r H; cbn [level1s] in H; [injection H as <-; constructor|]. apply bind_inv in H. destruct H as (y & E & H). apply fine_level1 in E. destruct (snd y) as [s'|].
  - apply bind_inv in H. destruct H as (z & E' & H). injection H as <-. apply IH in E'. cbn [fst snd]. apply ended_app; assumption.
  - injection H as <-. exact E.
Qed.
Lemma fine_clusters fuel o s r : check_clusters td fuel prof o s = Ok r -> ended (fst (fst r)) (snd r).
Proof.
  unfold check_clusters. cbv zeta. intros H. destruct (g_clusters (x_seg s)) as [|c cl]; [injection H as <-; constructor|].
  apply bind_inv in H. destruct H as (tr & _ & H). apply bind_inv in H. destruct H as (m1 & E1 & H). apply bind_inv in H. destruct H as (r2 & E2 & H). apply bind_inv in H. destruct H as (m3 & E3 & H). apply bind_inv in H. destruct H as (m4 & E4 & H).
  assert (F : Forall fine (m1 ++ fst r2 ++ m3 ++ m4)).
  { apply fine_lacing in E2. apply fine_pos in E3. fine_go.
    - destruct (x_video s); [apply fine_vstart in E1; exact E1|injection E1 as <-; constructor].
    - destruct (g_cues (x_seg s)); [apply fine_cues in E4; exact E4|injection E4 as <-; fine_go]. }
  destruct (g_tracks (x_seg s)); injection H as <-; cbn [fst snd]; [exact F|]. apply (ended_app _ _ false F). exists [], 0x41. split; [reflexivity|]. split; [constructor|]. split; [lia|]. vm_compute. discriminate.
Qed.
Lemma fine_finish fuel o s l : finish td fuel o prof s = Ok l -> ends l.
Proof.
  unfold finish. cbv zeta. intros H. destruct (g_info (x_seg s)); [|injection H as <-; right; exists [], 0x40; split; [reflexivity|]; split; [constructor|]; split; [lia|]; vm_compute; discriminate].
  apply bind_inv in H. destruct H as (m2 & E2 & H). apply bind_inv in H. destruct H as (m3 & E3 & H). apply bind_inv in H. destruct H as ([[m4 ti] more] & E4 & H). apply fine_clusters in E4. cbn [fst snd] in E4.
  assert (F2 : Forall fine m2) by (destruct (g_seek (x_seg s)); [apply fine_seek in E2; exact E2|injection E2 as <-; fine_go]).
  assert (F3 : Forall fine m3) by (destruct (g_seek2 (x_seg s)); [apply fine_seek in E3; exact E3|injection E3 as <-; fine_go]).
  destruct more; [apply bind_inv in H; destruct H as (m5 & E5 & H)|]; injection H as <-.
  - left. cbn [ended] in E4. assert (F5 : Forall fine m5). { destruct (g_tracks (x_seg s)); [|injection E5 as <-; constructor]. eapply fine_each; [|exact E5]. intros t l. apply fine_track. }
    fine_go. apply Forall_forall. intros m Hm. apply in_flat_map in Hm. destruct Hm as (t & _ & Hm). destruct (ti_len t =? 0); [destruct Hm as [<-|[]]; fine_c|destruct Hm].
  - right. apply ended_app; [fine_go|]. apply ended_app; [exact F2|]. apply ended_app; [exact F3|exact E4].
Qed.
End V.
Lemma fine_head td o h m v p : check_head td o h = Ok (m, v, p) -> ended m (match p with Some _ => true | None => false end).
Proof.
  unfold check_head. intros H. assert (FF : forall c, (0 <? c) = true -> ((c mod 256 =? 0) = true -> c = 0x100) -> ended [Fatal c] false). { intros c H1 H2. exists [], c. split; [reflexivity|]. split; [constructor|]. split; [lia|]. intros E. apply H2. lia. }
  destruct h as [[[|] e]|]; [|injection H as <- <- <-; apply FF; [reflexivity|vm_compute; congruence]|injection H as <- <- <-; apply FF; [reflexivity|vm_compute; congruence]].
  destruct e as [i w|i chk ch]; [discriminate|]. destruct (chk =? 1); [injection H as <- <- <-; apply FF; [reflexivity|vm_compute; congruence]|]. cbv zeta in H.
  pose proof (fine_unknown (Master i chk ch)) as FU. destruct (check_unknown (Master i chk ch)) as [mu vd]. cbn [fst] in FU.
  apply bind_inv in H. destruct H as (rv & _ & H). apply bind_inv in H. destruct H as (il & _ & H). apply bind_inv in H. destruct H as (sl & _ & H). apply bind_inv in H. destruct H as (d & _ & H). apply bind_inv in H. destruct H as (doc & _ & H).
  assert (F1 : Forall fine (mu ++ when (1 <? rv) (Lost 5) ++ when (4 <? il) (Lost 6) ++ when (8 <? sl) (Lost 7))) by fine_go. revert H F1. generalize (mu ++ when (1 <? rv) (Lost 5) ++ when (4 <? il) (Lost 6) ++ when (8 <? sl) (Lost 7)). intros m0 H F1.
  destruct (_ && _); [injection H as <- <- <-; apply ended_app; [exact F1|apply FF; [reflexivity|vm_compute; congruence]]|].
  apply bind_inv in H. destruct H as (ver & _ & H). apply bind_inv in H. destruct H as (rver & _ & H). destruct (list_eqb doc MATROSKA).
  - unfold mk_profile in H. repeat match goal with H : context [if ?b then _ else _] |- _ => destruct b end; injection H as <- <- <-; cbn [ended when]; fine_go.
  - injection H as <- <- <-. cbn [ended]. fine_go.
Qed.
(** Every run. *)
Lemma fine_validate td fuel o f l : validate td fuel o f = Ok l -> ends l.
Proof.
  unfold validate. intros H. apply bind_inv in H. destruct H as ([[m v] p] & E & H). apply fine_head in E. destruct p as [prof|]; [|injection H as <-; right; exact E]. cbn [ended] in E.
  destruct (f_seg f) as [i|]; [|injection H as <-; apply ends_app; [exact E|]; right; exists [], 0x20; split; [reflexivity|]; split; [constructor|]; split; [lia|]; vm_compute; discriminate].
  apply bind_inv in H. destruct H as (r & E1 & H). apply fine_level1s in E1. destruct (snd r) as [s|].
  - apply bind_inv in H. destruct H as (m' & E2 & H). injection H as <-. apply fine_finish in E2. apply ends_app; [exact E|]. apply ends_app; [exact E1|exact E2].
  - injection H as <-. apply ends_app; [exact E|]. right. exact E1.
Qed.
Lemma fine_counted m : fine m -> counted m -> 0 < code m.
Proof. destruct m; cbn; tauto. Qed.
Lemma validate_result td fuel o f l : validate td fuel o f = Ok l -> result l <= 0 /\ (result l = 0 <-> clean l).
Proof.
  intros H. apply fine_validate in H. destruct (result_gen l) with (r := 0) as [R1 R2]; [|lia|split; [exact R1|unfold result; rewrite R2; tauto]].
  intros m Hm C. destruct H as [H|(a & c & -> & Ha & Hc & _)]; [rewrite Forall_forall in H; apply fine_counted; auto|]. apply in_app_iff in Hm. destruct Hm as [Hm|[<-|[]]]; [rewrite Forall_forall in Ha; apply fine_counted; auto|exact Hc].
Qed.
Lemma validate_status td fuel o f l : validate td fuel o f = Ok l ->
  (exit_status l = 0 <-> In (Fatal 0x100) l \/ forall m, In m l -> counted m -> m = Err 0x200).
Proof.
  intros H. apply fine_validate in H. unfold exit_status, result. destruct H as [H|(a & c & -> & Ha & Hc & Hz)].
  - rewrite Forall_forall in H. rewrite status_gen by (intros c Hc; exact (H _ Hc)). split.
    + intros [_ E]. right. intros [c|c|c|c] Hm C; try contradiction; [f_equal; destruct (H _ Hm) as [_ Q]; apply Q, E, Hm|destruct (H _ Hm)].
    + intros [Q|Q]; [destruct (H _ Q)|]. split; [reflexivity|]. intros c Hm. specialize (Q _ Hm I). injection Q as ->. reflexivity.
  - rewrite fold_left_app. cbn [fold_left add_result]. rewrite Forall_forall in Ha. split.
    + intros E. left. apply in_app_iff. right. left. f_equal. apply Hz. lia.
    + intros [Q|Q].
      * apply in_app_iff in Q. destruct Q as [Q|[[= ->]|[]]]; [destruct (Ha _ Q)|reflexivity].
      * assert (In (Fatal c) (a ++ [Fatal c])) as Q' by apply in_elt. specialize (Q _ Q' I). discriminate.
Qed.
