From Coq Require Import Permutation Sorted.
From Verif Require Import Base Vint EbmlId EbmlIdSpec EbmlIdProofs IntEltProofs Ebml Tree TreeRead Create Arr Stream Frame BlockTime BlockTimeProofs Cues CuesSpec CuesProofs.

Lemma first_here E id e l : has_id E id e -> first_elt E id (e :: l) e.
Proof. intros H. exists [], l. split; [reflexivity|]. split; [exact H|constructor]. Qed.
Lemma first_later E id x e l : ~ has_id E id x -> first_elt E id l e -> first_elt E id (x :: l) e.
Proof. intros H (l1 & l2 & -> & He & Hl). exists (x :: l1), l2. split; [reflexivity|]. split; [exact He|]. constructor; assumption. Qed.

Lemma cue_update_ok td fuel prof q i k ch s bt track c seg : (2 <= fuel)%nat -> q_elt q = Master i k ch -> has_id mk_E 187 (q_elt q) -> e_kind i = Known 1 ->
  seg_scale (q_seg q) = s -> 0 < s -> Z.abs bt < 2 ^ 62 -> 0 <= track < 2 ^ 16 -> - 2 ^ 62 < e_epos c < 2 ^ 62 -> - 2 ^ 62 < position_data seg < 2 ^ 62 ->
  exists q', cue_update td fuel prof q bt track (Some c) seg = Ok (ERR_NONE, q') /\ q_seg q' = q_seg q /\
    is_cue mk_E q' (Z.quot bt s * s) track (e_epos c - position_data seg).
Proof.
  intros Hf Hq Hid Hk Hs Hp Hb Ht He Hd. destruct fuel as [|[|fuel]]; [lia..|].
  assert (Hqs : - 2 ^ 62 < Z.quot bt s * s < 2 ^ 62 /\ - 2 ^ 62 < Z.quot bt s < 2 ^ 62).
  { pose proof (Z.quot_rem' bt s) as H1. pose proof (Z.rem_bound_abs bt s ltac:(lia)) as Hr.
    assert (Z.abs (Z.quot bt s) * s <= Z.abs bt).
    { rewrite <- Z.quot_abs by lia. rewrite (Z.abs_eq s) by lia. rewrite Z.mul_comm. apply Z.mul_quot_le; lia. }
    assert (Z.abs (Z.quot bt s) <= Z.abs (Z.quot bt s) * s) by nia. assert (Z.abs (Z.quot bt s * s) <= Z.abs bt) by (rewrite Z.abs_mul, (Z.abs_eq s) by lia; assumption). lia. }
  unfold cue_update. rewrite Hq. rewrite (scale64_ok bt s) || (rewrite Hs, (scale64_ok bt s) by assumption).
  cbn [add_mandatory]. rewrite Hk. cbn -[Z.land Z.quot s64 seg_scale position_data Z.sub].
  rewrite !Z.land_0_l. change (0 =? 0) with true. cbn -[Z.land Z.quot s64 seg_scale position_data Z.sub].
  rewrite ?Z.land_0_l. change (0 =? 0) with true. cbn -[Z.land Z.quot s64 seg_scale position_data Z.sub].
  assert (H0 : forall x, - 2 ^ 63 <= x < 2 ^ 63 -> s64 x = x) by exact s64_small.

  destruct (Z.land PROF_STATE prof =? 0); cbn -[Z.land Z.quot s64 seg_scale position_data Z.sub].
  all: rewrite ?(H0 (Z.quot bt s)), ?(H0 track), ?(H0 (e_epos c - position_data seg)) by lia.
  all: eexists; split; [reflexivity|]; split; [reflexivity|]; unfold int_set; rewrite ?(H0 (Z.quot bt s)), ?(H0 track), ?(H0 (e_epos c - position_data seg)) by lia.
  all: eexists _, _, _; split; [reflexivity|]; split; [unfold has_id; cbn; rewrite Hk; reflexivity|]; split.
  1, 3: eexists _, _; split; [apply first_here; reflexivity|]; cbn [q_seg]; rewrite Hs; split; [reflexivity|lia].
  all: eexists _, _, _; split; [apply first_later; [intros X; discriminate X|]; apply first_here; reflexivity|].
  all: split; [eexists _, _; split; [apply first_here; reflexivity|]; split; [reflexivity|lia]|].
  all: eexists; apply first_later; [intros X; discriminate X|]; apply first_here; reflexivity.
Qed.

Section Child.
Context (E : schema) (td : Z -> Z).
Lemma change_child_ok id f ch d d' : find_child E id ch = Some d -> f d = Ok d' -> eid_of E (einfo d') = id ->
  exists ch', change_child E id f ch = Ok ch' /\ find_child E id ch' = Some d' /\ forall id2, id2 <> id -> find_child E id2 ch' = find_child E id2 ch.
Proof.
  intros Hd Hf Hid. induction ch as [|x ch IH]; cbn [find_child find change_child] in *; [discriminate|]. unfold find_child in *. cbn [find] in *.
  destruct (Z.eqb_spec (eid_of E (einfo x)) id) as [Hx|Hx].
  - injection Hd as ->. rewrite Hf. cbn [bind]. exists (d' :: ch). split; [reflexivity|]. cbn [find]. rewrite Hid, Z.eqb_refl. split; [reflexivity|].
    intros id2 H2. rewrite Hx. rewrite (proj2 (Z.eqb_neq id id2)) by (intros A; apply H2; symmetry; exact A). reflexivity.
  - destruct (IH Hd) as (ch' & -> & H1 & H2). cbn [bind]. exists (x :: ch'). split; [reflexivity|]. cbn [find]. rewrite (proj2 (Z.eqb_neq _ _) Hx). split; [exact H1|].
    intros id2 H3. rewrite (H2 id2 H3). reflexivity.
Qed.
Lemma find_app id (a b : list elt) : find_child E id (a ++ b) = match find_child E id a with Some d => Some d | None => find_child E id b end.
Proof. unfold find_child. induction a as [|x a IH]; cbn; [reflexivity|]. destruct (_ =? _); [reflexivity|exact IH]. Qed.
(** [f] works on the child that is there or on a new one. *)
Lemma with_child_ok fuel sd prof c f i k ch d d' :
  match find_child E (c_id (E c)) ch with Some x => Ok x | None => create E td fuel sd prof c end = Ok d -> f d = Ok d' -> eid_of E (einfo d') = c_id (E c) ->
  exists i' ch', with_child E td fuel sd prof c f (Master i k ch) = Ok (Master i' k ch') /\ e_kind i' = e_kind i /\
    find_child E (c_id (E c)) ch' = Some d' /\ forall id2, id2 <> c_id (E c) -> find_child E id2 ch' = find_child E id2 ch.
Proof.
  intros Hd Hf Hid. cbn [with_child]. destruct (find_child E (c_id (E c)) ch) as [x|] eqn:Ex.
  - injection Hd as ->. destruct (change_child_ok _ f ch d d' Ex Hf Hid) as (ch' & -> & H1 & H2). cbn [bind]. exists i, ch'. auto.
  - rewrite Hd. cbn [bind]. rewrite Hf. cbn [bind]. eexists _, _. split; [reflexivity|]. split; [reflexivity|]. split.
    + rewrite find_app, Ex. unfold find_child. cbn [find]. rewrite Hid, Z.eqb_refl. reflexivity.
    + intros id2 H2. rewrite find_app. destruct (find_child E id2 ch); [reflexivity|]. unfold find_child. cbn [find]. rewrite Hid.
      rewrite (proj2 (Z.eqb_neq (c_id (E c)) id2)) by (intros A; apply H2; symmetry; exact A). reflexivity.
Qed.
End Child.

Lemma find_child_id E id ch d : find_child E id ch = Some d -> eid_of E (einfo d) = id.
Proof. intros H. apply find_some in H. apply Z.eqb_eq, (proj2 H). Qed.
Lemma seek_update_ok td fuel e seg id n l : seek_ready e -> valid_id_len id n ->
  exists e', seek_update td fuel e (Some seg) (Some (id, l)) = Ok (ERR_NONE, e') /\ seek_ready e' /\ seek_id e' = Ok id /\
    seek_rel e' = Ok (s64 (e_epos l - position_data seg)).
Proof.
  intros (i & k & ch & -> & Hk & H1 & H2) Hid. unfold seek_update. cbn [einfo]. rewrite Hk. cbn [kind_class mk_E c_class].
  assert (Hn4 : n <= 4) by (destruct Hid; lia). destruct (id_roundtrip id n 4 [] Hid Hn4) as (Hl & _ & Hb & _). rewrite app_nil_r in Hb.
  set (bs := fill_buffer_id 4 id) in *.
  assert (A : exists j v, match find_child mk_E (c_id (mk_E 11)) ch with Some x => Ok x | None => create mk_E td fuel false 0 11 end = Ok (Leaf j (VBin v)) /\ eid_of mk_E j = ID_SeekID).
  { change (c_id (mk_E 11)) with ID_SeekID. destruct (find_child mk_E ID_SeekID ch) as [d|] eqn:Ed.
    - destruct (H1 d eq_refl) as (j & v & ->). exists j, v. split; [reflexivity|]. exact (find_child_id _ _ _ _ Ed).
    - destruct fuel; eexists _, _; split; reflexivity. }
  destruct A as (j & v & A & Aj).
  destruct (with_child_ok mk_E td fuel false 0 11 (put_bin bs) i k ch _ _ A eq_refl Aj) as (i1 & ch1 & -> & Hk1 & F1 & G1). cbn [bind].
  set (rel := s64 (e_epos l - position_data seg)).
  assert (B : exists j v, match find_child mk_E (c_id (mk_E 12)) ch1 with Some x => Ok x | None => create mk_E td fuel false 0 12 end = Ok (Leaf j (VInt v)) /\ eid_of mk_E j = ID_SeekPosition).
  { change (c_id (mk_E 12)) with ID_SeekPosition. rewrite (G1 ID_SeekPosition) by (vm_compute; discriminate). destruct (find_child mk_E ID_SeekPosition ch) as [d|] eqn:Ed.
    - destruct (H2 d eq_refl) as (j' & v' & ->). exists j', v'. split; [reflexivity|]. exact (find_child_id _ _ _ _ Ed).
    - destruct fuel; eexists _, _; split; reflexivity. }
  destruct B as (j2 & v2 & B & Bj).
  destruct (with_child_ok mk_E td fuel false 0 12 (put_int rel) i1 k ch1 _ _ B eq_refl Bj) as (i2 & ch2 & -> & Hk2 & F2 & G2). cbn [bind].
  eexists. split; [reflexivity|]. change (c_id (mk_E 11)) with ID_SeekID in *. change (c_id (mk_E 12)) with ID_SeekPosition in *.
  assert (F1' : find_child mk_E ID_SeekID ch2 = find_child mk_E ID_SeekID ch1) by (apply G2; vm_compute; discriminate). rewrite F1 in F1'.
  split; [|split].
  - eexists _, _, _. split; [reflexivity|]. split; [congruence|]. split; intros d Hd; [rewrite F1' in Hd|rewrite F2 in Hd]; injection Hd as <-; eexists _, _; reflexivity.
  - unfold seek_id. cbn [children]. rewrite F1'. assert (bs <> []) by (intros X; rewrite X in Hl; change (zlen (@nil Z)) with 0 in Hl; destruct Hid; lia).
    destruct bs as [|b bs]; [contradiction|]. rewrite Hb. reflexivity.
  - unfold seek_rel. cbn [children]. rewrite F2. unfold int_set. cbn [int_of]. rewrite (s64_small rel); [reflexivity|].
    unfold rel, s64, s_wrap. pose proof (Z.mod_pos_bound (e_epos l - position_data seg + 2 ^ 63) (2 ^ 64) ltac:(lia)). change (64 - 1) with 63. lia.
Qed.

Lemma s64_back a b : - 2 ^ 63 <= a < 2 ^ 63 -> s64 (s64 (a - b) + b) = a.
Proof.
  intros H. unfold s64, s_wrap. change (64 - 1) with 63.
  replace ((a - b + 2 ^ 63) mod 2 ^ 64 - 2 ^ 63 + b + 2 ^ 63) with ((a - b + 2 ^ 63) mod 2 ^ 64 + b) by ring.
  rewrite Z.add_mod_idemp_l by lia. replace (a - b + 2 ^ 63 + b) with (a + 2 ^ 63) by ring. rewrite Z.mod_small by lia. ring.
Qed.

(** ** Looking for a block *)
Lemma cluster_time_again c ct c' : cluster_time c = (ct, c') -> ct <> INVALID_TIMESTAMP -> cluster_time c' = (ct, c').
Proof.
  intros H Hn. unfold cluster_time in *. destruct (Z.eqb_spec (cl_global c) INVALID_TIMESTAMP) as [e|e].
  - destruct (cl_elt c) as [v|] eqn:Ev; [|injection H as <- <-; contradiction]. injection H as <- <-. cbn [cl_global cl_elt].
    rewrite (proj2 (Z.eqb_neq _ _) Hn). reflexivity.
  - injection H as <- <-. rewrite (proj2 (Z.eqb_neq _ _) e). reflexivity.
Qed.
Lemma s16_small x : 0 <= x < 2 ^ 15 -> s16 x = x.
Proof. intros H. unfold s16. apply s_wrap_small; [lia|change (16 - 1) with 15; lia]. Qed.
Lemma is_wanted_ok ct s track ts k b t c : at_time ct c -> big ct -> scale_ok s -> block_at ct s b t -> big t -> 0 <= k < 2 ^ 16 ->
  exists c', is_wanted track ts k b c = Ok ((k =? s16 track) && (t =? ts), c') /\ at_time ct c'.
Proof.
  intros [c1 Hc] Hb Hs (Hr & Hw & H1 & H2 & Hg & Hl & ->) Hbt Hk. unfold is_wanted. rewrite Z.mod_small by exact Hk. destruct (Z.eqb_spec k (s16 track)) as [_|_].
  - rewrite (block_time_ok b c s ct c1) by assumption. cbn [bind andb]. exists c1. split; [reflexivity|]. exists c1. apply (cluster_time_again c); [exact Hc|].
    unfold big in Hb. intros ->. unfold INVALID_TIMESTAMP in Hb. lia.
  - exists c. split; [reflexivity|]. exists c1. exact Hc.
Qed.
Lemma block_at_fun ct s b t t' : block_at ct s b t -> block_at ct s b t' -> t = t'.
Proof. intros (_ & _ & _ & _ & _ & _ & ->) (_ & _ & _ & _ & _ & _ & ->). reflexivity. Qed.
Lemma find_in_group_ok ct s track ts n g m c : at_time ct c -> big ct -> scale_ok s -> Forall (timed ct s) (group_places n m g) ->
  exists r c', find_in_group g m track ts c = Ok (r, c') /\ at_time ct c' /\
    match r with
    | None => Forall (fun p => ~ matches ct s (s16 track) ts p) (group_places n m g)
    | Some j => exists l1 kb l2, group_places n m g = l1 ++ (n, j, kb) :: l2 /\ matches ct s (s16 track) ts (n, j, kb) /\
        Forall (fun p => ~ matches ct s (s16 track) ts p) l1
    end.
Proof.
  intros Hc Hb Hs. revert m c Hc. induction g as [|[[k b]|] g IH]; intros m c Hc Ht; cbn [find_in_group group_places] in *.
  - exists None, c. split; [reflexivity|]. split; [exact Hc|constructor].
  - apply Forall_cons_iff in Ht. destruct Ht as [(Hk & t & Hbt & Hbig) Ht]. cbn [fst snd] in Hk, Hbt.
    destruct (is_wanted_ok ct s track ts k b t c Hc Hb Hs Hbt Hbig Hk) as (c1 & -> & Hc1). cbn [bind fst snd].
    destruct (Z.eqb_spec k (s16 track)) as [Ek|Ek]; [destruct (Z.eqb_spec t ts) as [Et|Et]|]; cbn [andb].
    + exists (Some m), c1. split; [reflexivity|]. split; [exact Hc1|]. exists [], (k, b), (group_places n (S m) g). split; [reflexivity|].
      split; [split; cbn [fst snd]; [exact Ek|subst t; exact Hbt]|constructor].
    + assert (Hno : ~ matches ct s (s16 track) ts (n, m, (k, b))) by (intros [_ X]; cbn [fst snd] in X; apply Et; exact (block_at_fun _ _ _ _ _ Hbt X)).
      destruct (IH (S m) c1 Hc1 Ht) as (r & c2 & -> & Hc2 & Hr). exists r, c2. split; [reflexivity|]. split; [exact Hc2|].
      destruct r as [j|]; [destruct Hr as (l1 & kb & l2 & -> & Hm & Hn); exists ((n, m, (k, b)) :: l1), kb, l2; split; [reflexivity|]; split; [exact Hm|]|]; constructor; assumption.
    + assert (Hno : ~ matches ct s (s16 track) ts (n, m, (k, b))) by (intros [X _]; cbn [fst snd] in X; contradiction).
      destruct (IH (S m) c1 Hc1 Ht) as (r & c2 & -> & Hc2 & Hr). exists r, c2. split; [reflexivity|]. split; [exact Hc2|].
      destruct r as [j|]; [destruct Hr as (l1 & kb & l2 & -> & Hm & Hn); exists ((n, m, (k, b)) :: l1), kb, l2; split; [reflexivity|]; split; [exact Hm|]|]; constructor; assumption.
  - exact (IH (S m) c Hc Ht).
Qed.
Lemma get_block_ok ct s track ts l n c : at_time ct c -> big ct -> scale_ok s -> Forall (timed ct s) (places n l) ->
  exists r, get_block l n track ts c = Ok r /\
    match r with
    | None => Forall (fun p => ~ matches ct s (s16 track) ts p) (places n l)
    | Some (i, j) => exists l1 kb l2, places n l = l1 ++ (i, j, kb) :: l2 /\ matches ct s (s16 track) ts (i, j, kb) /\
        Forall (fun p => ~ matches ct s (s16 track) ts p) l1
    end.
Proof.
  intros Hc Hb Hs. revert n c Hc. induction l as [|[g|k b|] l IH]; intros n c Hc Ht; cbn [get_block places] in *.
  - exists None. split; [reflexivity|constructor].
  - apply Forall_app in Ht. destruct Ht as [Hg Ht]. destruct (find_in_group_ok ct s track ts n g 0 c Hc Hb Hs Hg) as (r & c1 & -> & Hc1 & Hr). cbn [bind fst snd].
    destruct r as [j|].
    + exists (Some (n, j)). split; [reflexivity|]. destruct Hr as (l1 & kb & l2 & -> & Hm & Hn). exists l1, kb, (l2 ++ places (S n) l).
      rewrite <- app_assoc. split; [reflexivity|]. auto.
    + destruct (IH (S n) c1 Hc1 Ht) as (r & -> & Hr2). exists r. split; [reflexivity|]. destruct r as [[i j]|].
      * destruct Hr2 as (l1 & kb & l2 & -> & Hm & Hn). exists (group_places n 0 g ++ l1), kb, l2. rewrite <- app_assoc. split; [reflexivity|]. split; [exact Hm|].
        apply Forall_app. auto.
      * apply Forall_app. auto.
  - apply Forall_cons_iff in Ht. destruct Ht as [(Hk & t & Hbt & Hbig) Ht]. cbn [fst snd] in Hk, Hbt.
    destruct (is_wanted_ok ct s track ts k b t c Hc Hb Hs Hbt Hbig Hk) as (c1 & -> & Hc1). cbn [bind fst snd].
    destruct ((k =? s16 track) && (t =? ts)) eqn:Ew.
    + apply andb_prop in Ew. destruct Ew as [Ek Et]. apply Z.eqb_eq in Ek, Et. exists (Some (n, 0%nat)). split; [reflexivity|].
      exists [], (k, b), (places (S n) l). split; [reflexivity|]. split; [split; cbn [fst snd]; [exact Ek|subst t; exact Hbt]|constructor].
    + assert (Hno : ~ matches ct s (s16 track) ts (n, 0%nat, (k, b))).
      { intros [X Y]. cbn [fst snd] in X, Y. rewrite X, (block_at_fun _ _ _ _ _ Hbt Y), !Z.eqb_refl in Ew. discriminate. }
      destruct (IH (S n) c1 Hc1 Ht) as (r & -> & Hr2). exists r. split; [reflexivity|]. destruct r as [[i j]|].
      * destruct Hr2 as (l1 & kb & l2 & -> & Hm & Hn). exists ((n, 0%nat, (k, b)) :: l1), kb, l2. split; [reflexivity|]. split; [exact Hm|]. constructor; assumption.
      * constructor; assumption.
  - exact (IH (S n) c Hc Ht).
Qed.
