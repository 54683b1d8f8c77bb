From Verif Require Import Base BaseProofs Ebml Tree TreeRead TreeSpec TreeProofs Create CreateSpec CreateProofs CreateProofs2 Reduce ReduceSpec.

(** ** Sublists *)
Lemma sub_weaken {A B} (R R' : A -> B -> Prop) (L L' : A -> Prop) a b : (forall x y, R x y -> R' x y) -> (forall x, L x -> L' x) -> sub R L a b -> sub R' L' a b.
Proof. intros HR HL. induction 1; [constructor|apply sub_keep; auto|apply sub_skip; auto]. Qed.
Lemma sub_refl {A} (L : A -> Prop) a : sub eq L a a.
Proof. induction a; constructor; auto. Qed.
Lemma sub_trans {A B} (R : A -> B -> Prop) (L : A -> Prop) (M : B -> Prop) a b : sub R L a b -> forall c, sub eq M b c -> sub R (fun x => L x \/ exists y, R x y /\ M y) a c.
Proof.
  induction 1 as [|x y l l' Hr _ IH|x l l' Hx _ IH]; intros c Hc.
  - inversion Hc; subst. constructor.
  - inversion Hc as [|? ? ? c' Hy Hc'|? ? ? Hy Hc']; subst; [apply sub_keep; auto|apply sub_skip; [right; exists y; auto|auto]].
  - apply sub_skip; [left; exact Hx|auto].
Qed.
Lemma sub_remove {A} (L : A -> Prop) : forall n (ch : list A) c, nth_error ch n = Some c -> L c -> sub eq L ch (firstn n ch ++ skipn (S n) ch).
Proof.
  induction n as [|n IH]; intros [|d ch] c H HL; try discriminate.
  - cbn in H. injection H as ->. cbn [firstn skipn app]. apply sub_skip; [exact HL|apply sub_refl].
  - cbn in H. cbn [firstn skipn app]. apply sub_keep; [reflexivity|]. exact (IH ch c H HL).
Qed.
Lemma sub_app_inv {A B} (R : A -> B -> Prop) L a1 : forall a2 b, sub R L (a1 ++ a2) b -> exists b1 b2, b = b1 ++ b2 /\ sub R L a1 b1 /\ sub R L a2 b2.
Proof.
  induction a1 as [|x a1 IH]; intros a2 b H.
  - exists [], b. split; [reflexivity|]. split; [constructor|exact H].
  - cbn [app] in H. inversion H as [|? y ? l' Hr H'|? ? ? Hx H']; subst.
    + destruct (IH _ _ H') as (b1 & b2 & -> & H1 & H2). exists (y :: b1), b2. split; [reflexivity|]. split; [constructor; auto|exact H2].
    + destruct (IH _ _ H') as (b1 & b2 & -> & H1 & H2). exists b1, b2. split; [reflexivity|]. split; [apply sub_skip; auto|exact H2].
Qed.
Lemma sub_eq_in {A} (L : A -> Prop) a b : sub eq L a b -> forall x, In x b -> In x a.
Proof. induction 1 as [|x y l l' -> _ IH|x l l' _ _ IH]; intros z Hz; [exact Hz| |right; auto]. destruct Hz as [->|Hz]; [left; reflexivity|right; auto]. Qed.
Lemma sub_in {A B} (R : A -> B -> Prop) L a b : sub R L a b -> forall y, In y b -> exists x, In x a /\ R x y.
Proof. induction 1 as [|x y l l' Hr _ IH|x l l' _ _ IH]; intros z Hz; [destruct Hz| |]. - destruct Hz as [->|Hz]; [exists x; split; [left; reflexivity|exact Hr]|]. destruct (IH z Hz) as (w & H1 & H2). exists w. split; [right; exact H1|exact H2].
  - destruct (IH z Hz) as (w & H1 & H2). exists w. split; [right; exact H1|exact H2]. Qed.
Lemma sub_from {A B} (R : A -> B -> Prop) L a b : sub R L a b -> forall x, In x a -> L x \/ exists y, In y b /\ R x y.
Proof. induction 1 as [|x y l l' Hr _ IH|x l l' Hx _ IH]; intros z Hz; [destruct Hz| |].
  - destruct Hz as [->|Hz]; [right; exists y; split; [left; reflexivity|exact Hr]|]. destruct (IH z Hz) as [H|(w & H1 & H2)]; [left; exact H|right; exists w; split; [right; exact H1|exact H2]].
  - destruct Hz as [->|Hz]; [left; exact Hx|]. apply IH. exact Hz. Qed.
Lemma sub_len {A B} (R : A -> B -> Prop) L a b : sub R L a b -> (length b <= length a)%nat.
Proof. induction 1; cbn [length]; lia. Qed.

Section Check.
Context (E : schema) (prof : Z) (l : list sem).
Notation eid c := (eid_of E (einfo c)).

Lemma sem_line c s : sem_of E l c = Some s <-> line E l c s.
Proof.
  unfold sem_of, line. clear. induction l as [|t l0 IH]; cbn [find].
  - split; [discriminate|]. intros (l1 & l2 & H & _). destruct l1; discriminate.
  - destruct (c_id (E (s_ctx t)) =? eid c) eqn:Q.
    + apply Z.eqb_eq in Q. split.
      * intros [= <-]. exists [], l0. split; [reflexivity|]. split; [exact Q|]. intros s' [].
      * intros (l1 & l2 & H & H2 & H3). destruct l1 as [|t' l1]; [injection H as -> _; reflexivity|]. injection H as -> ->. exfalso. apply (H3 t'); [left; reflexivity|exact Q].
    + apply Z.eqb_neq in Q. rewrite IH. split.
      * intros (l1 & l2 & -> & H2 & H3). exists (t :: l1), l2. split; [reflexivity|]. split; [exact H2|]. intros s' [<-|H]; [exact Q|auto].
      * intros (l1 & l2 & H & H2 & H3). destruct l1 as [|t' l1]; [injection H as -> _; contradiction|]. injection H as -> ->. exists l1, l2. split; [reflexivity|]. split; [exact H2|].
        intros s' H. apply H3. right. exact H.
Qed.
Lemma sem_id_eq c s : sem_of E l c = Some s -> sem_id E s = eid c.
Proof. intros H. apply sem_line in H. destruct H as (l1 & l2 & _ & H & _). exact H. Qed.
Lemma sem_same c d : eid c = eid d -> sem_of E l c = sem_of E l d.
Proof. unfold sem_of. intros ->. reflexivity. Qed.

Definition fine (ch : list elt) (c : elt) : Prop := is_dummy E c = false -> forall s, sem_of E l c = Some s -> enabled prof s /\ (s_uniq s = true -> second_child E (eid c) ch = None).
Definition cut (ch' : list elt) (c : elt) : Prop := exists s, line E l c s /\ (~ enabled prof s \/ (s_uniq s = true /\ has E (eid c) ch')).
Definition stays (id : Z) : Prop := forall c s, eid c = id -> sem_of E l c = Some s -> enabled prof s.

Lemma has_filter id ch : has E id ch <-> filter (fun c => eid c =? id) ch <> [].
Proof.
  split.
  - intros (c & H1 & H2) H. assert (In c (filter (fun c => eid c =? id) ch)) by (apply filter_In; split; [exact H1|apply Z.eqb_eq; exact H2]). rewrite H in H0. destruct H0.
  - intros H. destruct (filter _ ch) as [|c f] eqn:F; [contradiction|]. assert (Hc : In c (filter (fun c => eid c =? id) ch)) by (rewrite F; left; reflexivity). apply filter_In in Hc. destruct Hc as [H1 H2].
    exists c. split; [exact H1|]. apply Z.eqb_eq. exact H2.
Qed.
Lemma filter_remove (p : elt -> bool) : forall n ch c, nth_error ch n = Some c -> length (filter p ch) = ((if p c then 1 else 0) + length (filter p (remove_nth n ch)))%nat.
Proof.
  unfold remove_nth. induction n as [|n IH]; intros [|d ch] c H; try discriminate.
  - cbn in H. injection H as ->. cbn [firstn skipn app filter]. destruct (p c); reflexivity.
  - cbn in H. change (firstn (S n) (d :: ch) ++ skipn (S (S n)) (d :: ch)) with (d :: (firstn n ch ++ skipn (S n) ch)). cbn [filter].
    specialize (IH ch c H). destruct (p d); cbn [length]; lia.
Qed.

Lemma check_del : forall fuel ch n acc ch' r, check_children E fuel (Some (fun _ => true)) prof l ch n acc = Some (ch', r) ->
  (forall k c, (1 <= k < n)%nat -> nth_error ch k = Some c -> fine ch c) ->
  sub eq (cut ch') ch ch' /\ (forall id, stays id -> has E id ch -> has E id ch') /\ (forall k c, (1 <= k)%nat -> nth_error ch' k = Some c -> fine ch' c).
Proof.
  induction fuel as [|fuel IH]; intros ch n acc ch' r H Hf; cbn [check_children] in H.
  - destruct (nth_error ch n) as [c|] eqn:Hn; [discriminate|]. injection H as <- <-. split; [apply sub_refl|]. split; [auto|]. intros k c Hk Hc. apply (Hf k c); [|exact Hc].
    split; [exact Hk|]. apply nth_error_None in Hn. assert (k < length ch)%nat by (apply nth_error_Some; congruence). lia.
  - destruct (nth_error ch n) as [c|] eqn:Hn.
    2: { injection H as <- <-. split; [apply sub_refl|]. split; [auto|]. intros k c Hk Hc. apply (Hf k c); [|exact Hc]. split; [exact Hk|].
         apply nth_error_None in Hn. assert (k < length ch)%nat by (apply nth_error_Some; congruence). lia. }
    assert (Next : fine ch c -> forall acc, check_children E fuel (Some (fun _ => true)) prof l ch (S n) acc = Some (ch', r) ->
      sub eq (cut ch') ch ch' /\ (forall id, stays id -> has E id ch -> has E id ch') /\ (forall k c, (1 <= k)%nat -> nth_error ch' k = Some c -> fine ch' c)).
    { intros Hc a Ha. apply (IH _ _ _ _ _ Ha). intros k d Hk Hd. destruct (Nat.eq_dec k n) as [->|N]; [rewrite Hn in Hd; injection Hd as <-; exact Hc|]. apply (Hf k d); [lia|exact Hd]. }
    assert (Del : forall s acc, sem_of E l c = Some s -> (~ enabled prof s \/ (enabled prof s /\ s_uniq s = true /\ has E (eid c) (remove_nth n ch))) ->
      check_children E fuel (Some (fun _ => true)) prof l (remove_nth n ch) (match remove_nth n ch with [] => O | _ => 1%nat end) acc = Some (ch', r) ->
      sub eq (cut ch') ch ch' /\ (forall id, stays id -> has E id ch -> has E id ch') /\ (forall k c, (1 <= k)%nat -> nth_error ch' k = Some c -> fine ch' c)).
    { intros s a Hs Hw Ha. destruct (IH _ _ _ _ _ Ha) as (H1 & H2 & H3). { intros k d Hk. destruct (remove_nth n ch); lia. }
      split; [|split; [|exact H3]].
      - assert (Hcut : cut ch' c). { exists s. split; [apply sem_line; exact Hs|]. destruct Hw as [Hw|(Hw1 & Hw2 & Hw3)]; [left; exact Hw|right; split; [exact Hw2|]]. apply H2; [|exact Hw3].
          intros d s' Hd Hs'. rewrite (sem_same d c Hd), Hs in Hs'. injection Hs' as <-. exact Hw1. }
        assert (T := sub_trans eq (cut ch') (cut ch') ch _ (sub_remove (cut ch') n ch c Hn Hcut) ch' H1).
        refine (sub_weaken _ _ _ _ _ _ (fun x y h => h) _ T). intros x [Hx|(y & -> & Hx)]; exact Hx.
      - intros id Hst Hh. apply H2; [exact Hst|]. destruct (Z.eq_dec (eid c) id) as [Q|Q].
        + destruct Hw as [Hw|(_ & _ & Hw)]; [|rewrite <- Q; exact Hw]. elim Hw. exact (Hst c s Q Hs).
        + apply has_filter. apply has_filter in Hh. pose proof (filter_remove (fun c => eid c =? id) n ch c Hn) as F. cbv beta in F. rewrite (proj2 (Z.eqb_neq _ _) Q) in F.
          intros K. rewrite K in F. cbn in F. destruct (filter (fun c0 => eid c0 =? id) ch); [contradiction|discriminate F]. }
    cbv zeta in H. destruct (is_dummy E c) eqn:Dm; [apply Next in H; [exact H|]; intros K; congruence|].
    destruct (sem_of E l c) as [s|] eqn:Hs; [|apply Next in H; [exact H|]; intros _ s' K; congruence].
    destruct (Z.land (s_dis s) prof =? 0) eqn:Q; cbn [negb] in H; cbv iota beta in H.
    + apply enabledb in Q. assert (Hid := sem_id_eq c s Hs). unfold sem_id in Hid.
      destruct (s_uniq s) eqn:U.
      * rewrite Hid in H. destruct (second_child E (eid c) ch) as [d|] eqn:S2; cbv iota beta in H.
        -- apply (Del s _ eq_refl) in H; [exact H|]. right. split; [exact Q|]. split; [exact U|]. apply has_filter. unfold second_child in S2.
           pose proof (filter_remove (fun c0 => eid c0 =? eid c) n ch c Hn) as F. cbv beta in F. rewrite Z.eqb_refl in F. intros K. rewrite K in F. cbn in F.
           destruct (filter (fun c0 => eid c0 =? eid c) ch) as [|a [|b f]]; discriminate.
        -- apply Next in H; [exact H|]. intros _ s' Hs'. rewrite Hs in Hs'. injection Hs' as <-. split; [exact Q|]. intros _. exact S2.
      * apply Next in H; [exact H|]. intros _ s' Hs'. rewrite Hs in Hs'. injection Hs' as <-. split; [exact Q|]. congruence.
    + apply (Del s _ eq_refl) in H; [exact H|]. left. intros K. apply enabledb in K. congruence.
Qed.
End Check.
