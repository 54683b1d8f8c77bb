From Coq Require Import Permutation.
From Verif Require Import Base BaseProofs Tree TrackClean TrackCleanSpec.
Section Order.
Context {A : Type} (id : A -> Z).
Notation take := (take id).
Lemma take_some x l a c b : take x l = Some (a, c, b) -> l = a ++ c :: b /\ id c = x /\ Forall (fun d => id d <> x) a.
Proof.
  revert a. induction l as [|d l IH]; intros a H; [discriminate|]. cbn [TrackClean.take] in H. destruct (id d =? x) eqn:Q; [injection H as <- <- <-; split; [reflexivity|split; [lia|constructor]]|].
  destruct (take x l) as [[[a' c'] b']|]; [|discriminate]. injection H as <- <- <-. destruct (IH a' eq_refl) as (-> & E & F). split; [reflexivity|]. split; [exact E|]. constructor; [lia|exact F].
Qed.
Lemma take_none x l : take x l = None -> Forall (fun d => id d <> x) l.
Proof.
  induction l as [|d l IH]; intros H; [constructor|]. cbn [TrackClean.take] in H. destruct (id d =? x) eqn:Q; [discriminate|]. destruct (take x l) as [[[a' c'] b']|]; [discriminate|]. constructor; [lia|exact (IH eq_refl)].
Qed.
Lemma take_hit x l c : In c l -> id c = x -> take x l <> None.
Proof. intros I E K. apply take_none in K. rewrite Forall_forall in K. exact (K c I E). Qed.
Definition kind (x : Z) (c : A) : bool := id c =? x.
Definition other (c : A) : bool := negb ((id c =? 215) || (id c =? 131) || (id c =? 134)).
Lemma filter_none x a : Forall (fun d => id d <> x) a -> filter (kind x) a = [].
Proof. intros F. induction F as [|d a N F IH]; [reflexivity|]. cbn [filter]. unfold kind at 1. replace (id d =? x) with false by lia. exact IH. Qed.
(** Moving the first of a kind forward over others. *)
Lemma shift_kind p a c b x : Forall (fun d => id d <> id c) a -> filter (kind x) (p ++ c :: a ++ b) = filter (kind x) (p ++ a ++ c :: b).
Proof.
  intros F. rewrite !filter_app. cbn [filter]. rewrite !filter_app. cbn [filter]. destruct (kind x c) eqn:K; [|reflexivity]. unfold kind in K. apply Z.eqb_eq in K. rewrite <- K. rewrite (filter_none _ a F). reflexivity.
Qed.
Lemma shift_other p a c b : other c = false -> filter other (p ++ c :: a ++ b) = filter other (p ++ a ++ c :: b).
Proof. intros E. rewrite !filter_app. cbn [filter]. rewrite !filter_app. cbn [filter]. rewrite E. reflexivity. Qed.
Definition moved (l l' : list A) : Prop := Permutation l l' /\ (forall x, filter (kind x) l' = filter (kind x) l) /\ filter other l' = filter other l.
Lemma moved_refl l : moved l l.
Proof. split; [reflexivity|]. split; [intros x; reflexivity|reflexivity]. Qed.
Lemma moved_trans a b c : moved a b -> moved b c -> moved a c.
Proof. intros (P1 & P2 & P3) (Q1 & Q2 & Q3). split; [exact (perm_trans P1 Q1)|]. split; [intros x; rewrite Q2; apply P2|congruence]. Qed.
Lemma moved_shift p a c b : Forall (fun d => id d <> id c) a -> other c = false -> moved (p ++ a ++ c :: b) (p ++ c :: a ++ b).
Proof.
  intros F O. split; [apply Permutation_app_head, Permutation_sym, Permutation_middle|]. split; [intros x; apply shift_kind; exact F|apply shift_other; exact O].
Qed.
Lemma front_ok l : (exists n, In n l /\ id n = 215) -> (exists t, In t l /\ id t = 131) -> moved l (front id l) /\ leads id l (front id l).
Proof.
  intros (n0 & In0 & E0) (t0 & It0 & Et0). unfold front, ID_TRACK_NUMBER, ID_TRACK_TYPE, ID_CODEC_ID, move_after.
  destruct (take 215 l) as [[[a n] b]|] eqn:T1; [|exfalso; exact (take_hit _ _ _ In0 E0 T1)]. apply take_some in T1. destruct T1 as (El & En & Fa).
  set (l1 := n :: a ++ b). assert (M1 : moved l l1) by (subst l; apply (moved_shift [] a n b); [rewrite En; exact Fa|unfold other; rewrite En; reflexivity]).
  destruct (take 131 l1) as [[[a1 t] b1]|] eqn:T2; [|exfalso; apply (take_hit 131 l1 t0); [exact (Permutation_in t0 (proj1 M1) It0)|exact Et0|exact T2]].
  assert (T3 : take 215 l1 = Some ([], n, a ++ b)) by (unfold l1; cbn [TrackClean.take]; rewrite En; reflexivity). rewrite T3.
  apply take_some in T2. destruct T2 as (E1 & Et & F1). destruct a1 as [|n1 a1]; [exfalso; unfold l1 in E1; injection E1 as E1 _; congruence|].
  assert (N1 : n1 = n) by (unfold l1 in E1; injection E1 as E1 _; congruence). subst n1.
  assert (T4 : take 215 ((n :: a1) ++ b1) = Some ([], n, a1 ++ b1)) by (cbn [app TrackClean.take]; rewrite En; reflexivity). rewrite T4. cbn [app].
  apply Forall_cons_iff in F1. destruct F1 as [_ F1].
  set (l2 := n :: t :: a1 ++ b1). assert (M2 : moved l1 l2) by (rewrite E1; apply (moved_shift [n] a1 t b1); [rewrite Et; exact F1|unfold other; rewrite Et; reflexivity]).
  pose proof (moved_trans _ _ _ M1 M2) as M12.
  destruct (take 134 l2) as [[[a2 c] b2]|] eqn:T5.
  - apply take_some in T5. destruct T5 as (E2 & Ec & F2). destruct a2 as [|n2 a2]; [exfalso; unfold l2 in E2; injection E2 as E2 _; congruence|]. destruct a2 as [|t2 a2]; [exfalso; unfold l2 in E2; injection E2 as _ E2 _; congruence|].
    assert (N2 : n2 = n /\ t2 = t) by (unfold l2 in E2; injection E2 as E2 E3 _; split; congruence). destruct N2 as [-> ->].
    assert (T6 : take 131 ((n :: t :: a2) ++ b2) = Some ([n], t, a2 ++ b2)) by (cbn [app TrackClean.take]; rewrite En, Et; reflexivity). rewrite T6. cbn [app].
    apply Forall_cons_iff in F2. destruct F2 as [_ F2]. apply Forall_cons_iff in F2. destruct F2 as [_ F2].
    split.
    + apply (moved_trans _ _ _ M12). rewrite E2. apply (moved_shift [n; t] a2 c b2); [rewrite Ec; exact F2|unfold other; rewrite Ec; reflexivity].
    + exists n, t, (c :: a2 ++ b2). split; [reflexivity|]. split; [exact En|]. split; [exact Et|]. intros _ _ _. exists c, (a2 ++ b2). auto.
  - split; [exact M12|]. exists n, t, (a1 ++ b1). split; [reflexivity|]. split; [exact En|]. split; [exact Et|]. intros c Ic Ecc. exfalso. apply (take_hit 134 l2 c); [exact (Permutation_in c (proj1 M12) Ic)|exact Ecc|exact T5].
Qed.
End Order.
