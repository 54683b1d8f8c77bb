(** Proofs about cluster sorting. *)
From Verif Require Import Base Arr ArrSpec ArrProofs ArrProofs3 ArrProofs4 NodeTree NodeTreeSpec NodeTreeProofs IntEltProofs BlockTimeProofs CuesProofs ClusterSort ClusterSortSpec.

Definition tcmp (a b : kid) : Z := if is_time a && is_time b then 0 else cluster_cmp a b.
Lemma block_cmp_refl t n : block_cmp t n t n = 0.
Proof. unfold block_cmp. rewrite Z.eqb_refl. cbn. lia. Qed.
Lemma tcmp_refl a : tcmp a a = 0.
Proof. destruct a as [|t n|[[t n]|]|]; cbn; try reflexivity; apply block_cmp_refl. Qed.
Lemma sort_agree (look : Z -> kid) l : one_time (map look l) ->
  array_sort (fun x y => cluster_cmp (look x) (look y)) true false l = array_sort (fun x y => tcmp (look x) (look y)) true false l.
Proof.
  intros H. apply array_sort_agree with (bad := fun x => is_time (look x)).
  - intros x y E. unfold tcmp. rewrite E. reflexivity.
  - intros x. rewrite tcmp_refl. lia.
  - intros x y Hx Hy. unfold tcmp, cluster_cmp. rewrite Hx, Hy. cbn. lia.
  - intros x y Hx Hy. unfold tcmp, cluster_cmp. rewrite Hx, Hy. cbn. lia.
  - unfold one_bad. unfold one_time in H. clear -H. induction l as [|x l IH]; cbn in *; [lia|]. destruct (is_time (look x)); cbn in *; [|auto].
    assert (length (filter (fun x => is_time (look x)) l) = length (filter is_time (map look l))) as ->; [|exact H].
    clear. induction l as [|y l IH]; cbn; [reflexivity|]. destruct (is_time (look y)); cbn; rewrite IH; reflexivity.
Qed.

Lemma cluster_sort_safe fuel h F m look : rep h F -> m <> 0 -> (length (F m) <= fuel)%nat -> one_time (map look (F m)) ->
  exists r h', cluster_sort fuel h look m = Some h' /\ rep h' (fun q => if q =? m then r else F q) /\ Permutation (F m) r.
Proof.
  intros R Hm Hf Ho. destruct (array_sort_perm (fun x y => tcmp (look x) (look y))) with (fast := true) (a := F m) as (r & Hr & Hp).
  { intros x. rewrite tcmp_refl. lia. }
  rewrite <- sort_agree in Hr by exact Ho. destruct (master_sort_gen fuel h F _ m r R Hm Hf Hr Hp) as (h' & E & R').
  exists r, h'. split; [exact E|]. split; [exact R'|exact Hp].
Qed.

Lemma s32_small x : - 2 ^ 31 <= x < 2 ^ 31 -> s32 x = x.
Proof. intros H. unfold s32. rewrite s_wrap_small; lia. Qed.
(** The block comparison on times that are apart. *)
Lemma block_cmp_neg ta na tb nb : ta = tb \/ 100000 <= Z.abs (ta - tb) < 2 ^ 31 * 100000 -> (block_cmp ta na tb nb < 0 <-> ta < tb \/ (ta = tb /\ nb < na)) /\ (0 < block_cmp ta na tb nb <-> tb < ta \/ (ta = tb /\ na < nb)).
Proof.
  intros H. unfold block_cmp. destruct (Z.eqb_spec ta tb) as [->|Hn]; cbn [negb]; [lia|]. destruct H as [H|H]; [lia|].
  rewrite s64_small by lia. assert (Hq : (ta < tb -> Z.quot (ta - tb) 100000 < 0) /\ (tb < ta -> 0 < Z.quot (ta - tb) 100000) /\ Z.abs (Z.quot (ta - tb) 100000) < 2 ^ 31).
  { destruct (Z.lt_ge_cases ta tb).
    - replace (ta - tb) with (- (tb - ta)) by lia. rewrite Z.quot_opp_l by lia. rewrite Z.quot_div_nonneg by lia. lia.
    - rewrite Z.quot_div_nonneg by lia. lia. }
  rewrite s32_small by lia. lia.
Qed.

Definition block_like (k : kid) : Prop := k = KidTime \/ exists t n, stamp k t n.
(** With one form of blocks the comparison is that of the blocks. *)
Definition same_form (a b : kid) : Prop := (simple_only a /\ simple_only b) \/ (group_only a /\ group_only b).
Lemma tcmp_ok a b : same_form a b ->
  (a = KidTime /\ b = KidTime /\ tcmp a b = 0) \/ (a = KidTime /\ (exists t n, stamp b t n) /\ tcmp a b = -1) \/ (b = KidTime /\ (exists t n, stamp a t n) /\ tcmp a b = 1) \/
  exists ta na tb nb, stamp a ta na /\ stamp b tb nb /\ tcmp a b = block_cmp ta na tb nb.
Proof.
  unfold stamp.
  intros [[[->|(ta & na & ->)] [->|(tb & nb & ->)]]|[[->|(ta & na & ->)] [->|(tb & nb & ->)]]]; cbn; [auto|..].
  all: first [left; auto; fail | right; left; split; [reflexivity|]; split; [eauto|reflexivity] | right; right; left; split; [reflexivity|]; split; [eauto|reflexivity] | right; right; right; eexists _, _, _, _; split; [eauto|]; split; [eauto|reflexivity]].
Qed.
Lemma stamp_fun k t n t' n' : stamp k t n -> stamp k t' n' -> t = t' /\ n = n'.
Proof. intros [->| ->] [E|E]; inversion E; auto. Qed.
Lemma stamp_not_time t n : ~ stamp KidTime t n.
Proof. intros [E|E]; discriminate. Qed.

Lemma tcmp_le a b : same_form a b -> (forall ta na tb nb, stamp a ta na -> stamp b tb nb -> ta = tb \/ 100000 <= Z.abs (ta - tb) < 2 ^ 31 * 100000) ->
  (tcmp a b <= 0 <-> kid_le a b) /\ (tcmp a b < 0 <-> ~ kid_le b a).
Proof.
  intros Hf Ha. unfold kid_le. destruct (tcmp_ok a b Hf) as [(-> & -> & ->)|[(-> & (t & n & Hb) & ->)|[(-> & (t & n & Hb) & ->)|(ta & na & tb & nb & Sa & Sb & ->)]]].
  - split; [split; [auto|lia]|]. split; [lia|]. intros H. exfalso. apply H. auto.
  - split; [split; [auto|lia]|]. split; [|lia]. intros _ [->|(? & ? & ? & ? & _ & H & _)]; [exact (stamp_not_time _ _ Hb)|exact (stamp_not_time _ _ H)].
  - split; [|split; [lia|intros H; exfalso; apply H; auto]]. split; [lia|]. intros [->|(? & ? & ? & ? & _ & H & _)]; [destruct (stamp_not_time _ _ Hb)|destruct (stamp_not_time _ _ H)].
  - pose proof (block_cmp_neg ta na tb nb (Ha _ _ _ _ Sa Sb)) as [N P]. split.
    + split.
      * intros H. right. exists ta, na, tb, nb. split; [exact Sa|]. split; [exact Sb|]. lia.
      * intros [->|(? & ? & ? & ? & H1 & H2 & H)]; [destruct (stamp_not_time _ _ Sa)|]. destruct (stamp_fun _ _ _ _ _ Sa H1) as [<- <-]. destruct (stamp_fun _ _ _ _ _ Sb H2) as [<- <-]. lia.
    + split.
      * intros H. apply N in H. intros [->|(? & ? & ? & ? & H1 & H2 & H3)]; [destruct (stamp_not_time _ _ Sb)|]. destruct (stamp_fun _ _ _ _ _ Sb H1) as [<- <-]. destruct (stamp_fun _ _ _ _ _ Sa H2) as [<- <-]. lia.
      * intros H. apply N. assert (~ (tb < ta \/ (tb = ta /\ na <= nb))); [|lia]. intros G. apply H. right. exists tb, nb, ta, na. auto.
Qed.
Lemma kid_le_trans a b c : kid_le a b -> kid_le b c -> kid_le a c.
Proof.
  intros [->|(ta & na & tb & nb & A & B & H)] [E|(tb' & nb' & tc & nc & B' & C & H')]; try (left; reflexivity).
  - subst b. destruct (stamp_not_time _ _ B).
  - destruct (stamp_fun _ _ _ _ _ B B') as [<- <-]. right. exists ta, na, tc, nc. split; [exact A|]. split; [exact C|]. lia.
Qed.

Lemma cluster_sort_sorted fuel h F m look : rep h F -> m <> 0 -> (length (F m) <= fuel)%nat -> one_time (map look (F m)) ->
  (Forall simple_only (map look (F m)) \/ Forall group_only (map look (F m))) -> apart (map look (F m)) ->
  exists r h', cluster_sort fuel h look m = Some h' /\ rep h' (fun q => if q =? m then r else F q) /\ Permutation (F m) r /\ StronglySorted kid_le (map look r).
Proof.
  intros R Hm Hf Ho Hs Ha. set (P := fun x => existsb (Z.eqb x) (F m)).
  assert (HP : forall x, P x = true -> In (look x) (map look (F m))).
  { intros x Hx. apply existsb_exists in Hx. destruct Hx as (y & Hy & He). apply Z.eqb_eq in He. subst y. apply in_map, Hy. }
  assert (Hform : forall x y, P x = true -> P y = true -> same_form (look x) (look y)).
  { intros x y Hx Hy. apply HP in Hx, Hy. rewrite !Forall_forall in Hs. unfold same_form. destruct Hs as [Hs|Hs]; [left|right]; auto. }
  assert (Hle : forall x y, P x = true -> P y = true -> (tcmp (look x) (look y) <= 0 <-> kid_le (look x) (look y)) /\ (tcmp (look x) (look y) < 0 <-> ~ kid_le (look y) (look x))).
  { intros x y Hx Hy. apply tcmp_le; [auto|]. intros ta na tb nb. apply Ha; apply HP; assumption. }
  assert (HIn : Forall (fun x => P x = true) (F m)).
  { apply Forall_forall. intros x Hx. apply existsb_exists. exists x. split; [exact Hx|apply Z.eqb_refl]. }
  destruct (array_sort_on P (fun x y => tcmp (look x) (look y)) true (F m)) as (r & Hr & Hp & Hso).
  - exact HIn.
  - intros x y Hx Hy. destruct (Hle x y Hx Hy) as [_ A]. destruct (Hle y x Hy Hx) as [B _]. rewrite A, <- B. lia.
  - intros x y z Hx Hy Hz. rewrite (proj1 (Hle x y Hx Hy)), (proj1 (Hle y z Hy Hz)), (proj1 (Hle x z Hx Hz)). apply kid_le_trans.
  - rewrite <- sort_agree in Hr by exact Ho. destruct (master_sort_gen fuel h F _ m r R Hm Hf Hr Hp) as (h' & E & R').
    exists r, h'. split; [exact E|]. split; [exact R'|]. split; [exact Hp|].
    assert (HIr : Forall (fun x => P x = true) r) by (rewrite Forall_forall in *; intros x Hx; apply HIn; eapply Permutation_in; [symmetry; exact Hp|exact Hx]).
    clear -Hso HIr Hle. unfold sorted_by in Hso. induction Hso as [|x r Hso IH Hx]; cbn; constructor; apply Forall_cons_iff in HIr; destruct HIr as [Px Pr]; [auto|].
    apply Forall_map. rewrite Forall_forall in *. intros y Hy. apply (proj1 (Hle x y Px (Pr y Hy))), Hx, Hy.
Qed.
