From Coq Require Import QArith.
From Verif Require Import Base BaseProofs Tree MkInfo MkInfoSpec.
Open Scope Z_scope.

(** ** Level 1 *)
Lemma got_snoc_new k l e : readable k e -> got k (l ++ [e]) (Some e).
Proof. intros R. exists l, []. split; [reflexivity|]. split; [exact R|intros x []]. Qed.
Lemma got_snoc_same k l e o : ~ readable k e -> got k l o -> got k (l ++ [e]) o.
Proof.
  intros R. destruct o as [x|]; cbn [got].
  - intros (a & b & -> & Rx & N). exists a, (b ++ [e]). rewrite <- app_assoc. split; [reflexivity|]. split; [exact Rx|]. intros y Hy. apply in_app_or in Hy. destruct Hy as [Hy|[<-|[]]]; [apply N; exact Hy|exact R].
  - intros N y Hy. apply in_app_or in Hy. destruct Hy as [Hy|[<-|[]]]; [apply N; exact Hy|exact R].
Qed.
Definition inv (live keep : bool) (l : list lelt) (f : found) : Prop :=
  got LInfo l (f_info f) /\ got LTracks l (f_tracks f) /\
  (live = false -> got LChapters l (f_chapters f) /\ got LTags l (f_tags f) /\ got LAttachments l (f_attachments f) /\ (keep = true -> got LCues l (f_cues f))) /\
  (live = true -> f_chapters f = None /\ f_tags f = None /\ f_attachments f = None) /\ (live = true \/ keep = false -> f_cues f = None) /\
  exists s, only (readable LCluster) l s /\ f_clusters f = map strip s.
Lemma only_snoc_in {A} (P : A -> Prop) l s x : P x -> only P l s -> only P (l ++ [x]) (s ++ [x]).
Proof. intros H O. induction O; cbn [app]; [repeat constructor; exact H|apply only_in; assumption|apply only_out; assumption]. Qed.
Lemma only_snoc_out {A} (P : A -> Prop) l s x : ~ P x -> only P l s -> only P (l ++ [x]) s.
Proof. intros H O. induction O; cbn [app]; [apply only_out; [exact H|constructor]|apply only_in; assumption|apply only_out; assumption]. Qed.
Lemma not_kind k e : l_kind e <> k -> ~ readable k e. Proof. intros N [H _]. contradiction. Qed.
Lemma not_ok k e : l_ok e = false -> ~ readable k e. Proof. intros N [_ H]. congruence. Qed.
Ltac same1 K := first [apply got_snoc_same; [first [apply not_kind; rewrite K; discriminate|apply not_ok; assumption]|assumption]
                      |apply got_snoc_new; split; assumption].
Lemma inv_step live keep l f e : inv live keep l f -> inv live keep (l ++ [e]) (take live keep f e).
Proof.
  intros (I1 & I2 & I3 & I4 & I5 & s & I6 & I7). unfold take.
  destruct (l_kind e) eqn:K; destruct (l_ok e) eqn:O; try (destruct live eqn:EL); try (destruct keep eqn:EK); cbn [negb andb];
    (split; [cbn [f_info]; same1 K|]; split; [cbn [f_tracks]; same1 K|]; split;
      [intros X; try discriminate X; destruct (I3 eq_refl) as (J1 & J2 & J3 & J4); cbn [f_chapters f_tags f_attachments f_cues];
       (split; [same1 K|split; [same1 K|split; [same1 K|intros Y; try discriminate Y; specialize (J4 eq_refl); same1 K]]])|];
     split; [cbn [f_chapters f_tags f_attachments]; exact I4||(intros X; discriminate X)|]; split; [cbn [f_cues]; exact I5||(intros [X|X]; discriminate X)|];
     cbn [f_clusters]; first
       [exists s; split; [apply only_snoc_out; [first [apply not_kind; rewrite K; discriminate|apply not_ok; assumption]|exact I6]|exact I7]
       |exists (s ++ [e]); split; [apply only_snoc_in; [split; assumption|exact I6]|rewrite map_app, I7; reflexivity]]).
Qed.
Lemma inv0 live keep : inv live keep [] found0.
Proof.
  unfold inv, found0; cbn [f_info f_tracks f_chapters f_tags f_cues f_attachments f_clusters got]. split; [intros x []|]. split; [intros x []|].
  split; [intros _; split; [intros x []|split; [intros x []|split; [intros x []|intros _ x []]]]|]. split; [auto|]. split; [auto|]. exists []. split; [constructor|reflexivity].
Qed.
Lemma collect_inv live keep l : inv live keep l (collect live keep l).
Proof.
  unfold collect. induction l as [|e l IH] using rev_ind; [apply inv0|]. rewrite fold_left_app. cbn [fold_left]. apply inv_step. exact IH.
Qed.
(** Clusters. *)
Lemma del_position_only l : (times is_pos l <= 1)%nat -> only (fun c => is_pos c = false) l (del_position l).
Proof.
  induction l as [|[k z] l IH]; intros H; [constructor|]. destruct k; cbn [times del_position] in *; change (is_pos (CPosition, z)) with true in *; change (is_pos (CPrevSize, z)) with false in *; change (is_pos (COther, z)) with false in *.
  - apply only_out; [discriminate|]. assert (N : times is_pos l = O) by (cbn [Nat.add] in H; lia). clear -N. induction l as [|c l IH]; [constructor|]. cbn [times] in N.
    destruct (is_pos c) eqn:E; [lia|]. apply only_in; [exact E|apply IH; lia].
  - apply only_in; [reflexivity|apply IH; cbn [Nat.add] in H; lia].
  - apply only_in; [reflexivity|apply IH; cbn [Nat.add] in H; lia].
Qed.
Lemma del_prevsize_only l : (times is_prev l <= 1)%nat -> only (fun c => is_prev c = false) l (del_prevsize l).
Proof.
  induction l as [|[k z] l IH]; intros H; [constructor|]. destruct k; cbn [times del_prevsize] in *; change (is_prev (CPosition, z)) with false in *; change (is_prev (CPrevSize, z)) with true in *; change (is_prev (COther, z)) with false in *.
  - apply only_in; [reflexivity|apply IH; cbn [Nat.add] in H; lia].
  - apply only_out; [discriminate|]. assert (N : times is_prev l = O) by (cbn [Nat.add] in H; lia). clear -N. induction l as [|c l IH]; [constructor|]. cbn [times] in N.
    destruct (is_prev c) eqn:E; [lia|]. apply only_in; [exact E|apply IH; lia].
  - apply only_in; [reflexivity|apply IH; cbn [Nat.add] in H; lia].
Qed.
Lemma times_del l : times is_prev (del_position l) = times is_prev l.
Proof. induction l as [|[k z] l IH]; [reflexivity|]. destruct k; cbn [times del_position]; [reflexivity|f_equal; exact IH|f_equal; exact IH]. Qed.
Lemma only_two {A} (P Q R : A -> Prop) (l s t : list A) : (forall x, R x <-> P x /\ Q x) -> only P l s -> only Q s t -> only R l t.
Proof.
  intros E O. revert t. induction O as [|x l s H O IH|x l s H O IH]; intros t O2.
  - inversion O2; constructor.
  - inversion O2; subst; [apply only_in; [apply E; split; assumption|apply IH; assumption]|apply only_out; [rewrite E; tauto|apply IH; assumption]].
  - apply only_out; [rewrite E; tauto|apply IH; exact O2].
Qed.
Lemma strip_only e : (times is_pos (l_children e) <= 1)%nat -> (times is_prev (l_children e) <= 1)%nat -> only plain (l_children e) (l_children (strip e)).
Proof.
  intros H1 H2. cbn [strip l_children]. eapply only_two; [|apply del_position_only; exact H1|apply del_prevsize_only; rewrite times_del; exact H2].
  intros [k z]. unfold plain, is_pos, is_prev. cbn [fst]. destruct k; split; intros X; try discriminate X; try (destruct X; discriminate); [split; reflexivity|reflexivity].
Qed.

(** ** Segment Info *)
Lemma ikind_eqb_ok a b : ikind_eqb a b = true <-> a = b.
Proof. destruct a, b; split; intros; try reflexivity; discriminate. Qed.
Lemma find_some k l c : find_child k l = Some c -> exists a b, l = a ++ c :: b /\ c_kind c = k /\ forall x, In x a -> c_kind x <> k.
Proof.
  induction l as [|x l IH]; cbn [find_child]; [discriminate|]. destruct (ikind_eqb (c_kind x) k) eqn:E.
  - intros X. injection X as <-. exists [], l. split; [reflexivity|]. split; [apply ikind_eqb_ok; exact E|intros y []].
  - intros X. destruct (IH X) as (a & b & -> & K & N). exists (x :: a), b. split; [reflexivity|]. split; [exact K|]. intros y [<-|Hy]; [intros Y; apply ikind_eqb_ok in Y; congruence|apply N; exact Hy].
Qed.
Lemma find_none k l : find_child k l = None -> none k l.
Proof.
  induction l as [|x l IH]; cbn [find_child]; [intros _ y []|]. destruct (ikind_eqb (c_kind x) k) eqn:E; [discriminate|].
  intros X y [<-|Hy]; [intros Y; apply ikind_eqb_ok in Y; congruence|apply (IH X); exact Hy].
Qed.
Lemma find_is k a c b : c_kind c = k -> (forall x, In x a -> c_kind x <> k) -> find_child k (a ++ c :: b) = Some c.
Proof.
  intros K N. induction a as [|x a IH]; cbn [app find_child].
  - rewrite (proj2 (ikind_eqb_ok _ _) K). reflexivity.
  - destruct (ikind_eqb (c_kind x) k) eqn:E; [apply ikind_eqb_ok in E; elim (N x (or_introl eq_refl) E)|]. apply IH. intros y Hy. apply N. right. exact Hy.
Qed.
Lemma find_no k l : none k l -> find_child k l = None.
Proof. destruct (find_child k l) eqn:E; [|reflexivity]. intros N. destruct (find_some _ _ _ E) as (a & b & -> & K & _). elim (N i); [apply in_or_app; right; left; reflexivity|exact K]. Qed.
Definition keys (l : list ichild) : list Z := map c_key l.
Lemma keys_app a b : keys (a ++ b) = keys a ++ keys b. Proof. apply map_app. Qed.
Lemma nodup_mid a c b : NoDup (keys (a ++ c :: b)) -> ~ In (c_key c) (keys a) /\ ~ In (c_key c) (keys b) /\ NoDup (keys (a ++ b)).
Proof.
  rewrite !keys_app. cbn [keys map]. intros H. pose proof (NoDup_remove_1 _ _ _ H). pose proof (NoDup_remove_2 _ _ _ H) as N.
  split; [|split]; [intros X; apply N; apply in_or_app; left; exact X|intros X; apply N; apply in_or_app; right; exact X|assumption].
Qed.
Lemma remove_mid a c b : ~ In (c_key c) (keys a) -> remove_child (c_key c) (a ++ c :: b) = a ++ b.
Proof.
  induction a as [|x a IH]; intros N; cbn [app remove_child]; [rewrite Z.eqb_refl; reflexivity|]. cbn [keys map In] in N.
  destruct (Z.eqb_spec (c_key x) (c_key c)); [elim N; left; assumption|]. f_equal. apply IH. tauto.
Qed.
Lemma set_no key f l : ~ In key (keys l) -> set_child key f l = l.
Proof.
  induction l as [|x l IH]; intros N; [reflexivity|]. cbn [set_child map keys In] in *. destruct (Z.eqb_spec (c_key x) key); [elim N; left; assumption|]. f_equal. apply IH. tauto.
Qed.
Lemma set_mid f a c b : NoDup (keys (a ++ c :: b)) -> set_child (c_key c) f (a ++ c :: b) = a ++ f c :: b.
Proof.
  intros H. destruct (nodup_mid a c b H) as (N1 & N2 & _). unfold set_child. rewrite map_app. cbn [map]. rewrite Z.eqb_refl.
  change (set_child (c_key c) f a ++ f c :: set_child (c_key c) f b = a ++ f c :: b). rewrite !set_no by assumption. reflexivity.
Qed.
Lemma next_mid a c b key : ~ In (c_key c) (keys a) -> ~ In key (keys b) -> next_is (c_key c) key (a ++ c :: b) = false.
Proof.
  intros Na Nb. induction a as [|x a IH]; cbn [app next_is].
  - rewrite Z.eqb_refl. destruct b as [|d b]; [reflexivity|]. cbn [keys map In] in Nb. destruct (Z.eqb_spec (c_key d) key); [elim Nb; left; assumption|reflexivity].
  - cbn [keys map In] in Na. destruct (Z.eqb_spec (c_key x) (c_key c)); [elim Na; left; assumption|]. apply IH. tauto.
Qed.
Lemma to_front c f a b : NoDup (keys (a ++ c :: b)) -> hd_error (a ++ c :: b) = Some f -> move_before c f (a ++ c :: b) = c :: a ++ b.
Proof.
  intros H Hf. destruct (nodup_mid a c b H) as (N1 & N2 & N3). unfold move_before. destruct a as [|x a]; cbn [app hd_error] in Hf; injection Hf as <-.
  - rewrite Z.eqb_refl. reflexivity.
  - cbn [keys map In] in N1. replace (c_key c =? c_key x) with false by (symmetry; apply Z.eqb_neq; intros E; apply N1; left; symmetry; exact E).
    cbn [orb]. rewrite next_mid; [|exact N1|].
    + rewrite remove_mid by exact N1. cbn [app add_child]. rewrite Z.eqb_refl. reflexivity.
    + cbn [app keys map] in N3. inversion N3 as [|? ? N4 _]; subst. change (map c_key (a ++ b)) with (keys (a ++ b)) in N4. rewrite keys_app in N4. intros X. apply N4, in_or_app. right. exact X.
Qed.
Lemma grow_ok n : forall v, 0 < v -> 100000 <= v * 2 ^ Z.of_nat n -> exists k, 0 <= k /\ grow (S n) v = Ok (v * 2 ^ k) /\ 100000 <= v * 2 ^ k /\ (k = 0 \/ v * 2 ^ k < 200000).
Proof.
  induction n as [|n IH]; intros v P B.
  - change (2 ^ Z.of_nat 0) with 1 in B. exists 0. cbn [grow]. replace (v <? 100000) with false by lia. change (2 ^ 0) with 1. rewrite Z.mul_1_r. split; [lia|]. split; [reflexivity|]. split; [lia|left; reflexivity].
  - remember (S n) as m eqn:Em. cbn [grow]. destruct (Z.ltb_spec v 100000) as [L|L].
    + replace (v <? 0) with false by lia. subst m. rewrite Nat2Z.inj_succ, Z.pow_succ_r in B by lia.
      destruct (IH (v * 2)) as (k & Hk & E & B1 & B2); [lia|lia|]. exists (k + 1). rewrite Z.pow_add_r by lia. change (2 ^ 1) with 2.
      replace (v * (2 ^ k * 2)) with (v * 2 * 2 ^ k) by lia. split; [lia|]. split; [exact E|]. split; [exact B1|]. right. destruct B2 as [->|B2]; [change (2 ^ 0) with 1 in *; lia|exact B2].
    + exists 0. change (2 ^ 0) with 1. rewrite Z.mul_1_r. split; [lia|]. split; [reflexivity|]. split; [lia|left; reflexivity].
Qed.
Lemma grow_zero : forall fuel, grow fuel 0 = Fuel.
Proof. induction fuel as [|fuel IH]; [reflexivity|]. cbn [grow]. exact IH. Qed.
Lemma grow_inv : forall fuel v w, grow fuel v = Ok w -> 0 < v /\ exists k, 0 <= k /\ w = v * 2 ^ k /\ 100000 <= w /\ (k = 0 \/ w < 200000).
Proof.
  induction fuel as [|fuel IH]; intros v w; cbn [grow]; [discriminate|]. destruct (Z.ltb_spec v 100000) as [L|L].
  - destruct (Z.ltb_spec v 0) as [L2|L2]; [discriminate|]. intros E. destruct (IH _ _ E) as (P & k & Hk & -> & B1 & B2). split; [lia|]. exists (k + 1). rewrite Z.pow_add_r by lia. change (2 ^ 1) with 2.
    split; [lia|]. split; [lia|]. split; [exact B1|]. right. destruct B2 as [->|B2]; [change (2 ^ 0) with 1 in *; lia|exact B2].
  - intros E. injection E as <-. split; [lia|]. exists 0. change (2 ^ 0) with 1. split; [lia|]. split; [lia|]. split; [lia|left; reflexivity].
Qed.
