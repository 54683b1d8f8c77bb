(** Where clusters begin and what they hold. *)
From Verif Require Import Base BaseProofs Tree Stream Frame BlockTime Arr ArrSpec ArrProofs ArrProofs2 BlockTimeProofs Remux RemuxSpec RemuxProofs RemuxProofs2 RemuxProofs3 RemuxProofs4.

Section P.
Context (w : option Z) (s0 : tracks) (order : list Z) (main : Z) (Hmain : ~ In main order).
Definition dec_le (m : Z) (p : Z * item) : Prop := bi_dec (i_blk (snd p)) <= m.
Definition listed (p : Z * item) : Prop := In (fst p) (main :: order).
Lemma in_order_tl (x : Z) l : in_order (x :: l) -> in_order l.
Proof. intros H. apply StronglySorted_inv in H. apply H. Qed.
Lemma sub_le (x : Z) a y l : sub (x :: a) (y :: l) -> in_order (y :: l) -> y <= x.
Proof.
  intros H Ho. apply StronglySorted_inv in Ho. destruct Ho as [_ Ho]. apply sub_take_inv in H. destruct H as [[-> _]|H]; [lia|].
  pose proof (sub_Forall _ _ _ H Ho) as F. apply Forall_cons_iff in F. apply F.
Qed.

Lemma cluster_place times tst : forall fuel s s' o o0 b l,
  fst (s main) = b :: l -> snd (s main) = O -> inv s0 s o0 -> times_ok times (fst (s main)) ->
  cluster_loop w fuel (limit times) tst order main s = Ok (Some (s', o)) ->
  (exists p r, of_track main o = mkItem b true O (k_frames (bi_blk b)) (Some p) :: r) /\ Forall listed o /\
  (times <> [] -> next_dec (fst (s' main)) = limit times) /\
  (in_order (map bi_dec (fst (s main))) -> in_order (map bi_dec (fst (s' main))) /\ Forall (dec_le (limit times)) o) /\
  incl (fst (s' main)) (fst (s main)).
Proof.
  intros fuel. induction fuel as [|f IH]; intros s s' o o0 b l El Hs Hi Ht H.
  - cbn [cluster_loop] in H. rewrite El in H. discriminate.
  - pose proof H as H0. cbn [cluster_loop] in H. rewrite El in H.
    assert (Hm : limit times <= INVALID_TIMESTAMP).
    { destruct times as [|x times']; cbn [limit]; [lia|]. destruct Ht as [Ht _]. apply Forall_cons_iff in Ht. lia. }
    destruct (round w (limit times) tst order main s) as [| | |r] eqn:E1; try discriminate. cbn [bind] in H.
    destruct r as [[[reached s1] o1]|]; [|discriminate].
    destruct (round_spec w s0 order main Hmain _ _ _ _ _ _ _ _ _ Hm El Hs Hi E1) as (A1 & A2 & A3 & (oo & p & A4 & _ & A5) & _).
    assert (F1 : of_track main o1 = [mkItem b true 0 (k_frames (bi_blk b)) (Some p)]).
    { rewrite A4, of_track_app. replace (of_track main oo) with (@nil item).
      - unfold of_track. cbn [filter map fst snd app]. rewrite Z.eqb_refl. reflexivity.
      - unfold of_track. symmetry. clear A4 A1. induction oo as [|q oo IH']; [reflexivity|]. apply Forall_cons_iff in A5. destruct A5 as [[B1 _] B2].
        cbn [filter]. destruct (Z.eqb_spec (fst q) main) as [e|e]; [rewrite e in B1; contradiction|]. apply IH', B2. }
    assert (L1 : Forall listed o1).
    { rewrite A4. apply Forall_app. split; [|constructor; [left; reflexivity|constructor]].
      revert A5. apply Forall_impl. intros q [B _]. right. exact B. }
    assert (Bok : Forall bi_ok (b :: l)) by (destruct (Hi main) as (_ & _ & B); rewrite El in B; exact B).
    apply Forall_cons_iff in Bok. destruct Bok as [Bb Bl].
    assert (D1 : in_order (map bi_dec (fst (s main))) -> Forall (dec_le (limit times)) o1).
    { intros Ho. rewrite El in Ho. cbn [map] in Ho. destruct Ht as [_ Ht]. rewrite El in Ht. cbn [tl] in Ht.
      assert (N : next_dec l <= limit times).
      { destruct times as [|x times']; cbn [limit].
        - destruct l as [|n l']; cbn [next_dec]; [lia|]. apply Forall_cons_iff in Bl. pose proof (bi_dec_lt _ (proj1 Bl)). lia.
        - destruct l as [|n l']; cbn [next_dec map] in *; [inversion Ht|]. apply in_order_tl in Ho. eapply sub_le; eassumption. }
      rewrite A4. apply Forall_app. split.
      - revert A5. apply Forall_impl. intros q [_ B]. unfold dec_le. lia.
      - constructor; [|constructor]. unfold dec_le. cbn [snd i_blk]. apply StronglySorted_inv in Ho. destruct Ho as [_ Ho].
        destruct l as [|n l']; cbn [next_dec map] in *.
        + pose proof (bi_dec_lt _ Bb). lia.
        + apply Forall_cons_iff in Ho. lia. }
    destruct reached.
    + injection H as <- <-. rewrite F1. split; [eexists; eexists; reflexivity|]. split; [exact L1|]. rewrite A2. cbn [fst]. split; [|split].
      * intros Hne. destruct times as [|x times']; [contradiction|]. cbn [limit] in *.
        destruct (Z.eqb_spec (next_dec l) x) as [e|e]; [exact e|]. rewrite orb_false_r in A3. symmetry in A3. apply Z.eqb_eq in A3.
        apply next_dec_inv in A3; [|exact Bl]. subst l. destruct Ht as [_ Ht]. rewrite El in Ht. inversion Ht.
      * intros Ho. split; [|apply D1, Ho]. rewrite El in Ho. cbn [map] in Ho. eapply in_order_tl; eassumption.
      * rewrite El. intros y Hy. right. exact Hy.
    + destruct l as [|n l'] eqn:Ell.
      { exfalso. cbn [next_dec] in A3. rewrite Z.eqb_refl in A3. discriminate. }
      destruct (cluster_loop w f (limit times) tst order main s1) as [| | |r2] eqn:E2; try discriminate. cbn [bind] in H.
      destruct r2 as [[s2 o2]|]; [|discriminate]. injection H as <- <-.
      assert (Ht1 : times_ok times (fst (s1 main))).
      { rewrite A2. cbn [fst]. destruct Ht as [T1 T2]. split; [exact T1|]. rewrite El in T2. cbn [tl map] in T2 |- *.
        destruct times as [|x times']; [apply sub_nil|]. apply sub_take_inv in T2. destruct T2 as [[T2 _]|T2]; [|exact T2].
        exfalso. cbn [next_dec limit] in A3. subst x. rewrite Z.eqb_refl, orb_true_r in A3. discriminate. }
      destruct (IH s1 s2 o2 (o0 ++ o1) n l' ltac:(rewrite A2; reflexivity) ltac:(rewrite A2; reflexivity) A1 Ht1 E2) as ((p2 & r2 & G1) & G2 & G3 & G4 & G5).
      rewrite of_track_app, F1. split; [eexists; eexists; reflexivity|]. split; [apply Forall_app; auto|]. split; [exact G3|]. split.
      * intros Ho. destruct G4 as [G4 G4']; [rewrite A2; cbn [fst]; rewrite El in Ho; cbn [map] in *; eapply in_order_tl; eassumption|].
        split; [exact G4|]. apply Forall_app. auto.
      * rewrite A2 in G5. cbn [fst] in G5. rewrite El. intros y Hy. right. apply G5, Hy.
Qed.

(** What is said of one cluster: the block that begins it, [m] the time of the next. *)
Definition cl_ok (ord : bool) (start : binfo -> Prop) (m : Z) (o : list (Z * item)) : Prop :=
  (exists b p r, of_track main o = mkItem b true O (k_frames (bi_blk b)) (Some p) :: r /\ start b) /\ Forall listed o /\ (ord = true -> Forall (dec_le m) o).
Fixpoint cls_ok (ord : bool) (first : binfo -> Prop) (l : list binfo) (c : list (Z * list (Z * item))) : Prop :=
  match c with
  | [] => True
  | (t, o) :: c' => cl_ok ord first (limit (map fst c')) o /\
      cls_ok ord (fun b => In b l /\ bi_dec b = limit (map fst c')) l c'
  end.
Lemma clusters_place (all : list binfo) fuel : forall times tst s s' c o0 b l,
  fst (s main) = b :: l -> snd (s main) = O -> inv s0 s o0 -> times_ok times (fst (s main)) -> incl (fst (s main)) all ->
  clusters_loop w fuel (tst :: times) order main s = Ok (Some (s', c)) ->
  forall ord, (ord = true -> in_order (map bi_dec (fst (s main)))) ->
  forall first : binfo -> Prop, first b -> cls_ok ord first all c.
Proof.
  intros times. induction times as [|x times IH]; intros tst s s' c o0 b l El Hs Hi Ht Ha H ord Ho first Hf; rewrite clusters_loop_step in H.
  - destruct (cluster_loop w fuel (limit []) tst order main s) as [| | |r] eqn:E1; try discriminate. cbn [bind clusters_loop] in H.
    destruct r as [[s1 o1]|]; [|discriminate]. cbn [bind] in H. injection H as <- <-.
    destruct (cluster_place _ _ _ _ _ _ _ _ _ El Hs Hi Ht E1) as ((p & r & G1) & G2 & _ & G4 & _).
    cbn [cls_ok map]. split; [|exact I]. split; [exists b, p, r; auto|]. split; [exact G2|]. intros e. apply G4, Ho, e.
  - destruct (cluster_loop w fuel (limit (x :: times)) tst order main s) as [| | |r] eqn:E1; try discriminate. cbn [bind] in H.
    destruct r as [[s1 o1]|]; [|discriminate].
    destruct (clusters_loop w fuel (x :: times) order main s1) as [| | |r2] eqn:E2; try discriminate. cbn [bind] in H.
    destruct r2 as [[s2 c2]|]; [|discriminate]. injection H as <- <-.
    destruct (cluster_place _ _ _ _ _ _ _ _ _ El Hs Hi Ht E1) as ((p & r & G1) & G2 & G3 & G4 & G5).
    assert (Hne : fst (s main) <> []) by (rewrite El; discriminate).
    destruct (cluster_loop_spec w s0 order main Hmain _ _ _ _ _ _ _ Hne Hs Hi Ht E1) as (A1 & A2 & A3 & A4).
    destruct (clusters_loop_spec w s0 order main Hmain fuel _ _ _ _ _ _ A3 A2 A1 A4 E2) as (_ & _ & M).
    destruct (fst (s1 main)) as [|b1 l1] eqn:El1; [contradiction|].
    cbn [cls_ok]. rewrite M. split.
    + split; [exists b, p, r; auto|]. split; [exact G2|]. intros e. apply G4, Ho, e.
    + refine (IH x s1 s2 c2 (o0 ++ o1) b1 l1 El1 A2 A1 _ _ E2 ord _ _ _); rewrite ?El1.
      * exact A4.
      * intros y Hy. apply Ha, G5. exact Hy.
      * intros e. apply G4, Ho, e.
      * split; [apply Ha, G5; left; reflexivity|]. specialize (G3 ltac:(discriminate)). cbn [next_dec limit] in *. exact G3.
Qed.
End P.

(** The whole. *)
Section R.
Context (w : option Z) (src : Z -> list blk) (order : list Z) (main : Z) (Hmain : ~ In main order) (Hok : forall t, Forall block_ok (src t)).
Definition s_init : tracks := fun t => (decode_times INVALID_TIMESTAMP (src t), O).
Definition dec_of (t : Z) : list binfo := decode_times INVALID_TIMESTAMP (src t).
Lemma dec_ok t : Forall bi_ok (dec_of t).
Proof. apply decode_ok; auto. Qed.
Lemma init_inv : inv s_init s_init [].
Proof.
  intros t. unfold s_init. cbn [fst snd]. split; [|split; [|apply dec_ok]].
  - apply good_start with []; [reflexivity|apply tiles_nil|apply bi_ok_ne, dec_ok].
  - unfold started_ok. destruct (decode_times INVALID_TIMESTAMP (src t)); auto.
Qed.
Lemma key_sub l : sub (key_times l) (map bi_dec l).
Proof.
  unfold key_times. induction l as [|b l IH]; [apply sub_nil|]. cbn [filter map]. destruct (k_key (bi_blk b)); cbn [map]; [apply sub_take|apply sub_skip]; exact IH.
Qed.
Lemma dec_lim t : Forall lim (map bi_dec (dec_of t)).
Proof. apply Forall_map. generalize (dec_ok t). apply Forall_impl. intros b [_ H]. exact H. Qed.
Lemma thin_times keys r : thin (length keys) keys 0 INVALID_TIMESTAMP = Ok r -> keys = key_times (dec_of main) -> keys <> [] ->
  exists x times, r = x :: times /\ times_ok times (dec_of main) /\ Forall lim (x :: times) /\ Forall (fun t => In t keys) (x :: times).
Proof.
  intros H E Hn. apply thin_sub in H. destruct H as [H1 H2]. destruct r as [|x times]; [exfalso; apply H2; auto|]. exists x, times.
  assert (S1 : sub (x :: times) (map bi_dec (dec_of main))) by (apply sub_trans with keys; [rewrite E; apply key_sub|exact H1]).
  pose proof (sub_Forall _ _ _ S1 (dec_lim main)) as L.
  split; [reflexivity|]. split; [|split; [exact L|apply sub_Forall with keys; [exact H1|apply Forall_forall; auto]]].
  split.
  - apply Forall_cons_iff in L. destruct L as [_ L]. revert L. apply Forall_impl. intros y Hy. unfold lim, INVALID_TIMESTAMP in *. lia.
  - destruct (dec_of main) as [|b l]; [inversion S1|]. cbn [tl map] in *. apply sub_tail in S1. destruct S1 as (y & l' & E1 & S1). injection E1 as _ <-. exact S1.
Qed.
Lemma remux_inv c : remux w src order main = Ok (Clusters c) ->
  exists x times s', thin (length (key_times (dec_of main))) (key_times (dec_of main)) 0 INVALID_TIMESTAMP = Ok (x :: times) /\
    key_times (dec_of main) <> [] /\ dec_of main <> [] /\ times_ok times (dec_of main) /\ Forall lim (x :: times) /\ Forall (fun t => In t (key_times (dec_of main))) (x :: times) /\
    clusters_loop w (length (src main)) (x :: times) order main s_init = Ok (Some (s', c)).
Proof.
  unfold remux. cbv zeta. fold s_init. change (fst (decode_times INVALID_TIMESTAMP (src main), 0%nat)) with (dec_of main).
  destruct (key_times (dec_of main)) as [|k ks] eqn:Ek; intros H; [discriminate|].
  destruct (thin (length (k :: ks)) (k :: ks) 0 INVALID_TIMESTAMP) as [| | |r] eqn:Et; try discriminate. cbn [bind] in H.
  destruct (Nat.eqb (length (src main)) 1); [discriminate|].
  destruct (clusters_loop w (length (src main)) r order main s_init) as [| | |q] eqn:Ec; try discriminate. cbn [bind] in H.
  destruct q as [[s' c']|]; [|discriminate]. injection H as <-.
  destruct (thin_times _ _ Et (eq_sym Ek) ltac:(discriminate)) as (x & times & -> & T1 & T2 & T3). exists x, times, s'.
  split; [reflexivity|]. split; [discriminate|]. split; [intros E; rewrite E in Ek; discriminate|]. auto.
Qed.

Lemma remux_conserve c : remux w src order main = Ok (Clusters c) -> forall t, In t (main :: order) -> tiles (src t) (written t c).
Proof.
  intros H t Hin. destruct (remux_inv _ H) as (x & times & s' & _ & _ & Hne & T1 & T2 & _ & E).
  destruct (clusters_loop_spec w s_init order main Hmain _ _ _ s_init _ _ [] Hne eq_refl init_inv T1 E) as (A1 & A2 & _).
  destruct (A1 t) as ((don & o1 & p & B1 & B2 & B3 & B4 & B5) & _). rewrite (A2 t Hin) in *. destruct B5 as [-> _].
  rewrite app_nil_r in B1, B2. cbn [app] in B2. unfold written. rewrite B2. unfold s_init in B1. cbn [fst] in B1.
  rewrite <- B1, decode_blk in B3. exact B3.
Qed.
Lemma remux_place c : remux w src order main = Ok (Clusters c) -> forall ord, (ord = true -> in_order (map bi_dec (dec_of main))) ->
  cls_ok order main ord (fun b => exists l, dec_of main = b :: l) (dec_of main) c.
Proof.
  intros H ord Ho. destruct (remux_inv _ H) as (x & times & s' & _ & _ & Hne & T1 & T2 & _ & E).
  destruct (dec_of main) as [|b l] eqn:Ed; [contradiction|].
  refine (clusters_place w s_init order main Hmain (b :: l) _ _ _ s_init _ _ [] b l Ed eq_refl init_inv _ _ E ord _ _ _).
  - change (fst (s_init main)) with (dec_of main). rewrite Ed. exact T1.
  - change (fst (s_init main)) with (dec_of main). rewrite Ed. apply incl_refl.
  - change (fst (s_init main)) with (dec_of main). rewrite Ed. exact Ho.
  - exists l. reflexivity.
Qed.
Lemma cls_listed ord l c : forall first, cls_ok order main ord first l c -> Forall (listed order main) (concat (map snd c)).
Proof.
  induction c as [|[t o] c IH]; intros first H; cbn [cls_ok map concat snd] in *; [constructor|]. destruct H as [(_ & H1 & _) H2].
  apply Forall_app. split; [exact H1|]. eapply IH, H2.
Qed.
Lemma remux_nothing_else c : remux w src order main = Ok (Clusters c) -> forall t, ~ In t (main :: order) -> written t c = [].
Proof.
  intros H t Hn. pose proof (cls_listed _ _ _ _ (remux_place _ H false ltac:(discriminate))) as F.
  unfold written, of_track. induction (concat (map snd c)) as [|q l IH]; [reflexivity|]. apply Forall_cons_iff in F. destruct F as [F1 F2].
  cbn [filter]. destruct (Z.eqb_spec (fst q) t) as [e|e]; [rewrite <- e in Hn; contradiction|]. apply IH, F2.
Qed.
Lemma remux_times c : remux w src order main = Ok (Clusters c) ->
  thin (length (key_times (dec_of main))) (key_times (dec_of main)) 0 INVALID_TIMESTAMP = Ok (map fst c) /\ Forall (fun t => In t (key_times (dec_of main))) (map fst c).
Proof.
  intros H. destruct (remux_inv _ H) as (x & times & s' & Et & _ & Hne & T1 & T2 & T3 & E).
  destruct (clusters_loop_spec w s_init order main Hmain _ _ _ s_init _ _ [] Hne eq_refl init_inv T1 E) as (_ & _ & ->). auto.
Qed.
Lemma remux_spaced c : remux w src order main = Ok (Clusters c) -> in_order (key_times (dec_of main)) ->
  exists t keys times, key_times (dec_of main) = t :: keys /\ map fst c = t :: times /\ spaced t keys times.
Proof.
  intros H Ho. destruct (remux_times _ H) as [E _]. pose proof (sub_Forall _ _ _ (key_sub (dec_of main)) (dec_lim main)) as L.
  destruct (remux_inv _ H) as (_ & _ & _ & _ & Hn & _). destruct (key_times (dec_of main)) as [|t keys]; [contradiction|].
  destruct (thin_all t keys) as (r & E2 & S); [|exact Ho|].
  - revert L. apply Forall_impl. intros y Hy. unfold lim, INVALID_TIMESTAMP in *. lia.
  - exists t, keys, r. rewrite E2 in E. injection E as <-. auto.
Qed.

(** It ends. *)
Context (sc : Z) (Hw : seg_scale w = sc) (Hsc : scale_ok sc).
Lemma remux_total : length (src main) <> 1%nat -> in_order (key_times (dec_of main)) ->
  exists out, remux w src order main = Ok out /\
    match out with
    | NoKey => key_times (dec_of main) = []
    | TooFar => exists T t b, In T (key_times (dec_of main)) /\ In t (main :: order) /\ In b (src t) /\ in16 (Z.quot (k_time b - T) sc) = false
    | Clusters c => each (fun m t o => Forall (fun p => item_ok sc m t (snd p)) o) c
    end.
Proof.
  intros H1 Ho. unfold remux. cbv zeta. fold s_init. change (fst (decode_times INVALID_TIMESTAMP (src main), 0%nat)) with (dec_of main).
  pose proof (sub_Forall _ _ _ (key_sub (dec_of main)) (dec_lim main)) as L.
  destruct (key_times (dec_of main)) as [|k ks] eqn:Ek; [eexists; split; reflexivity|].
  destruct (thin_all k ks) as (r & Et & _); [|exact Ho|].
  { revert L. apply Forall_impl. intros y Hy. unfold lim, INVALID_TIMESTAMP in *. lia. }
  rewrite Et. cbn [bind]. apply Nat.eqb_neq in H1. rewrite H1.
  destruct (thin_times _ _ Et (eq_sym Ek) ltac:(discriminate)) as (x & times & E & T1 & T2 & T3). injection E as <- <-.
  assert (Hne : dec_of main <> []) by (intros E; rewrite E in Ek; discriminate).
  destruct (clusters_total w sc Hw Hsc s_init order main Hmain (length (src main)) r k s_init [] Hne) as (q & Eq & Fq).
  - unfold s_init. cbn [fst]. rewrite decode_length. lia.
  - reflexivity.
  - exact init_inv.
  - exact T1.
  - exact T2.
  - rewrite Eq. cbn [bind]. destruct q as [[s' c]|]; eexists; (split; [reflexivity|]); [exact Fq|].
    destruct Fq as (T & HT & t & b & B1 & B2 & B3). exists T, t, (bi_blk b). rewrite Forall_forall in T3.
    split; [apply T3; exact HT|]. split; [exact B1|]. split; [|exact B3]. unfold s_init in B2. cbn [fst] in B2.
    apply (in_map bi_blk) in B2. rewrite decode_blk in B2. exact B2.
Qed.
End R.
