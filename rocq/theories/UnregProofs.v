From Verif Require Import Base Tree Unreg UnregSpec.

Lemma nodup_app (a b : list nat) : NoDup a -> NoDup b -> (forall x, In x a -> ~ In x b) -> NoDup (a ++ b).
Proof.
  intros A B X. induction A as [|y a N A IH]; [exact B|]. cbn [app]. constructor.
  - rewrite in_app_iff. intros [H|H]; [contradiction|]. exact (X y (or_introl eq_refl) H).
  - apply IH. intros x I. apply X. right. exact I.
Qed.

Section P.
Context (table : list cls) (level : nat -> nat) (T : tree table level).

Lemma under_level i k : under table i k -> (level k <= level i)%nat.
Proof. destruct T as (_ & T2). induction 1 as [|i j k P U IH]; [lia|]. specialize (T2 i j P). lia. Qed.
Lemma under_trans i j k : under table i j -> under table j k -> under table i k.
Proof. induction 1; intros U; [exact U|]. eapply un_more; eauto. Qed.

Definition closed (st : nat -> bool) : Prop := (forall i, st i = true -> (i < length table)%nat) /\ forall i j, st i = true -> k_parent (cl table i) = Some j -> st j = true.

(** What a part of the work has done. *)
Record did (st st' : nat -> bool) (ev : list nat) : Prop := {
  d_closed : closed st';
  d_less : forall i, st' i = true -> st i = true;
  d_ev : forall i, In i ev <-> st i = true /\ st' i = false;
  d_once : NoDup ev;
  d_first : children_first table ev
}.

Lemma did_nil st : closed st -> did st st [].
Proof.
  intros C. split; auto.
  - intros i. split; [intros []|]. intros (A & B). congruence.
  - constructor.
  - intros a j b i E. destruct a; discriminate E.
Qed.

Lemma first_app ev1 ev2 : children_first table ev1 -> children_first table ev2 -> (forall j i, In j ev1 -> In i ev2 -> k_parent (cl table i) = Some j -> False) -> children_first table (ev1 ++ ev2).
Proof.
  intros F1 F2 X a j b i E P I. revert a E. induction ev1 as [|y ev1 IH]; intros a E.
  - exact (F2 a j b i E P I).
  - destruct a as [|z a]; cbn [app] in E; injection E as -> E.
    + subst b. apply in_app_or in I as [I|I]; [exact (F1 [] j ev1 i eq_refl P I)|]. exact (X j i (or_introl eq_refl) I P).
    + apply (IH ltac:(intros a' j' b' i' E' P'; apply (F1 (z :: a') j' b' i'); [cbn; rewrite E'; reflexivity|exact P']) ltac:(intros j' i' J I' P'; exact (X j' i' (or_intror J) I' P')) a E).
Qed.

Lemma did_app a b c e1 e2 : did a b e1 -> did b c e2 -> did a c (e1 ++ e2).
Proof.
  intros [C1 L1 E1 O1 F1] [C2 L2 E2 O2 F2]. split; auto.
  - intros i. rewrite in_app_iff, E1, E2. split.
    + intros [(A & B)|(A & B)]; [split; [exact A|]|split; [apply L1; exact A|exact B]]. destruct (c i) eqn:K; [apply L2 in K; congruence|reflexivity].
    + intros (A & B). destruct (b i) eqn:K; [right; auto|left; auto].
  - apply nodup_app; auto. intros i I J. apply E1 in I as (_ & I). apply E2 in J as (J & _). congruence.
  - apply first_app; auto. intros j i J I P. apply E1 in J as (_ & J). apply E2 in I as (I & _). rewrite (proj2 C1 i j I P) in J. discriminate J.
Qed.

(** The children of [k], one after the other. *)
Section C.
Context (fuel : nat) (incl : bool) (meta : nat -> bool) (k : nat).
Definition children := fix children (l : list nat) (st : nat -> bool) : res ((nat -> bool) * list nat) :=
  match l with
  | [] => Ok (st, [])
  | i :: l =>
      if st i && is_child table k i then
        do r <- uninit table fuel incl meta i st;
        do q <- children l (Datatypes.fst r);
        Ok (Datatypes.fst q, Datatypes.snd r ++ Datatypes.snd q)
      else children l st
  end.
End C.

Definition gone (k : nat) (st st' : nat -> bool) : Prop := forall i, st i = true -> (st' i = false <-> under table i k).

Lemma is_child_ok k i : is_child table k i = true <-> k_parent (cl table i) = Some k.
Proof.
  unfold is_child. destruct (k_parent (cl table i)) as [j|]; [|split; discriminate]. rewrite Nat.eqb_eq. split; congruence.
Qed.

Lemma children_ok fuel incl meta k :
  (forall i st, k_parent (cl table i) = Some k -> st i = true -> closed st -> (forall j, st j = true -> meta j = true) ->
     exists st' ev, uninit table fuel incl meta i st = Ok (st', ev) /\ did st st' ev /\ gone i st st') ->
  forall l st, closed st -> (forall j, st j = true -> meta j = true) ->
  exists st' ev, children fuel incl meta k l st = Ok (st', ev) /\ did st st' ev /\
    (forall c, In c l -> k_parent (cl table c) = Some k -> st' c = false) /\ (forall i, st i = true -> st' i = false -> exists c, k_parent (cl table c) = Some k /\ under table i c).
Proof.
  intros H. induction l as [|i l IH]; intros st C M; cbn [children].
  - exists st, []. split; [reflexivity|]. split; [apply did_nil; exact C|]. split; [intros c []|]. intros i A B. congruence.
  - destruct (st i && is_child table k i) eqn:K.
    + apply Bool.andb_true_iff in K as (K1 & K2). apply is_child_ok in K2. destruct (H i st K2 K1 C M) as (s1 & e1 & -> & D1 & G1). cbn [bind Datatypes.fst Datatypes.snd].
      destruct (IH s1 (d_closed _ _ _ D1)) as (s2 & e2 & -> & D2 & A2 & B2); [intros j J; apply M, (d_less _ _ _ D1), J|]. cbn [bind Datatypes.fst Datatypes.snd].
      exists s2, (e1 ++ e2). split; [reflexivity|]. split; [exact (did_app _ _ _ _ _ D1 D2)|]. split.
      * intros c [<-|I] P; [|exact (A2 c I P)]. assert (S1 : s1 i = false) by (apply (G1 i K1); constructor). destruct (s2 i) eqn:S2; [apply (d_less _ _ _ D2) in S2; congruence|reflexivity].
      * intros j J1 J2. destruct (s1 j) eqn:S1; [exact (B2 j S1 J2)|]. exists i. split; [exact K2|]. apply (G1 j J1), S1.
    + destruct (IH st C M) as (s2 & e2 & -> & D2 & A2 & B2). exists s2, e2. split; [reflexivity|]. split; [exact D2|]. split; [|exact B2].
      intros c [<-|I] P; [|exact (A2 c I P)]. apply is_child_ok in P. rewrite P, Bool.andb_true_r in K. destruct (s2 i) eqn:S2; [apply (d_less _ _ _ D2) in S2; congruence|reflexivity].
Qed.

Lemma uninit_unfold fuel incl meta k st : uninit table (S fuel) incl meta k st =
  if negb incl && k_is_module (cl table k) then Ok (st, [])
  else do r <- children fuel incl meta k (seq 0 (length table)) st; if negb (meta k) then Bad else Ok (off (Datatypes.fst r) k, Datatypes.snd r ++ [k]).
Proof. reflexivity. Qed.

Lemma uninit_ok incl meta : forall fuel k st, (length table < level k + fuel)%nat -> (incl = true \/ forall i, under table i k -> k_is_module (cl table i) = false) ->
  st k = true -> closed st -> (forall j, st j = true -> meta j = true) -> exists st' ev, uninit table fuel incl meta k st = Ok (st', ev) /\ did st st' ev /\ gone k st st'.
Proof.
  destruct T as (T1 & T2). induction fuel as [|fuel IH]; intros k st F S K C M; [specialize (T1 k); lia|]. rewrite uninit_unfold.
  assert (N : negb incl && k_is_module (cl table k) = false) by (destruct S as [->|S]; [reflexivity|rewrite (S k (un_self _ _)); apply Bool.andb_false_r]). rewrite N.
  destruct (children_ok fuel incl meta k) with (l := seq 0 (length table)) (st := st) as (s1 & e1 & -> & D & A & B); auto.
  { intros i s P I Cs Ms. apply IH; auto; [specialize (T2 i k P); lia|]. destruct S as [S|S]; [left; exact S|]. right. intros j U. apply S. eapply under_trans; [exact U|]. eapply un_more; [exact P|constructor]. }
  cbn [bind Datatypes.fst Datatypes.snd]. rewrite (M k K). cbn [negb]. exists (off s1 k), (e1 ++ [k]). split; [reflexivity|].
  assert (Kon : s1 k = true).
  { destruct (s1 k) eqn:X; [reflexivity|]. exfalso. destruct (B k K X) as (c & P & U). apply under_level in U. specialize (T2 c k P). lia. }
  assert (NC : forall c, k_parent (cl table c) = Some k -> s1 c = false).
  { intros c P. destruct (s1 c) eqn:X; [|reflexivity]. rewrite <- X. apply A; [|exact P]. apply in_seq. pose proof (proj1 (d_closed _ _ _ D) c X). lia. }
  assert (D2 : did s1 (off s1 k) [k]).
  { destruct (d_closed _ _ _ D) as (C1 & C2). unfold off. split.
    - split.
      + intros i. destruct (i =? k)%nat; [discriminate|apply C1].
      + intros i j. destruct (Nat.eqb_spec i k) as [|NE]; [discriminate|]. intros I P. destruct (Nat.eqb_spec j k) as [->|]; [rewrite (NC i P) in I; discriminate|exact (C2 i j I P)].
    - intros i. destruct (i =? k)%nat; [discriminate|auto].
    - intros i. destruct (Nat.eqb_spec i k) as [->|NE].
      + split; [auto|left; reflexivity].
      + split; [intros [X|[]]; congruence|intros (X & Y); congruence].
    - constructor; [intros []|constructor].
    - intros a j b i E P. destruct a as [|z a]; [injection E as <- <-; intros []|]. destruct a; discriminate E. }
  split; [exact (did_app _ _ _ _ _ D D2)|]. intros i I. unfold off. destruct (Nat.eqb_spec i k) as [->|NE].
  - split; [intros _; constructor|reflexivity].
  - split.
    + intros X. destruct (B i I X) as (c & P & U). eapply under_trans; [exact U|]. eapply un_more; [exact P|constructor].
    + intros U. destruct (s1 i) eqn:X; [|reflexivity]. exfalso. destruct (d_closed _ _ _ D) as (C1 & C2). clear I. induction U as [|i j k P U IHU]; [contradiction|].
      destruct (Nat.eq_dec j k) as [->|NJ]; [rewrite (NC i P) in X; discriminate|]. apply IHU; auto. exact (C2 i j X P).
Qed.

Lemma leave_ok incl m : goes table incl m -> forall l x, in_order table x ->
  exists x' ev, leave table incl m l x = Ok (x', ev) /\ in_order table x' /\ did (x_inited x) (x_inited x') ev /\ x_singles x' = x_singles x /\
    (forall i, x_meta x' i = x_meta x i && negb (existsb (Nat.eqb i) l && (k_module (cl table i) =? m)%nat)) /\
    (forall i, x_inited x i = true -> (x_inited x' i = false <-> exists k, In k l /\ k_module (cl table k) = m /\ under table i k)).
Proof.
  intros G. induction l as [|i l IH]; intros x (O1 & O2 & O3); cbn [leave].
  - exists x, []. split; [reflexivity|]. split; [split; [|split]; assumption|]. split; [apply did_nil; split; assumption|]. split; [reflexivity|]. split.
    + intros i. cbn. rewrite Bool.andb_true_r. reflexivity.
    + intros i I. split; [congruence|intros (k & [] & _)].
  - assert (Under : forall j k, x_inited x j = true -> under table j k -> x_inited x k = true) by (intros j k J U; induction U as [|j a k P U IHU]; [exact J|apply IHU; exact (O2 j a J P)]).
    destruct (Nat.eqb_spec (k_module (cl table i)) m) as [Em|Nm].
    + destruct (x_meta x i) eqn:Mi; cbn [andb].
      * assert (R : exists s e, (if x_inited x i then uninit table (S (length table)) incl (x_meta x) i (x_inited x) else Ok (x_inited x, [])) = Ok (s, e) /\ did (x_inited x) s e /\ gone i (x_inited x) s).
        { destruct (x_inited x i) eqn:Ii.
          - apply uninit_ok; auto; [lia| |split; assumption]. destruct G as [G|G]; [left; exact G|]. right. intros j U. exact (G j i Em U).
          - exists (x_inited x), []. split; [reflexivity|]. split; [apply did_nil; split; assumption|]. intros j J. split; [congruence|]. intros U. rewrite (Under j i J U) in Ii. discriminate. }
        destruct R as (s & e & -> & D & Gn). cbn [bind Datatypes.fst Datatypes.snd].
        assert (Off : s i = false) by (destruct (s i) eqn:X; [|reflexivity]; pose proof (d_less _ _ _ D i X) as Y; rewrite <- X; apply (Gn i Y); constructor).
        destruct (IH (mkCtx s (off (x_meta x) i) (x_singles x))) as (x' & ev & -> & O & D2 & S & Mt & Q).
        { split; [exact (proj1 (d_closed _ _ _ D))|]. split; [exact (proj2 (d_closed _ _ _ D))|]. cbn [x_inited x_meta]. intros j J. unfold off. destruct (Nat.eqb_spec j i) as [->|]; [congruence|]. apply O3, (d_less _ _ _ D), J. }
        cbn [bind Datatypes.fst Datatypes.snd x_inited x_meta x_singles] in *. exists x', (e ++ ev). split; [reflexivity|]. split; [exact O|]. split; [exact (did_app _ _ _ _ _ D D2)|]. split; [exact S|]. split.
        -- intros j. rewrite Mt. unfold off. cbn [existsb]. destruct (Nat.eqb_spec j i) as [->|NE]; cbn [orb]; [|reflexivity]. rewrite Em, Nat.eqb_refl. cbn. rewrite Bool.andb_false_r. reflexivity.
        -- intros j J. destruct (s j) eqn:Sj.
           ++ rewrite (Q j Sj). split; [intros (k & I & R); exists k; split; [right; exact I|exact R]|]. intros (k & [<-|I] & R1 & R2); [|exists k; auto]. apply (Gn j J) in R2. congruence.
           ++ split; [intros _; exists i; split; [left; reflexivity|]; split; [exact Em|]; apply (Gn j J), Sj|]. intros _. destruct (x_inited x' j) eqn:X; [|reflexivity]. apply (d_less _ _ _ D2) in X. congruence.
      * destruct (IH x (conj O1 (conj O2 O3))) as (x' & ev & -> & O & D2 & S & Mt & Q). exists x', ev. split; [reflexivity|]. split; [exact O|]. split; [exact D2|]. split; [exact S|]. split.
        -- intros j. rewrite Mt. cbn [existsb]. destruct (Nat.eqb_spec j i) as [->|NE]; cbn [orb]; [rewrite Mi; reflexivity|reflexivity].
        -- intros j J. rewrite (Q j J). split; [intros (k & I & R); exists k; split; [right; exact I|exact R]|]. intros (k & [<-|I] & R1 & R2); [|exists k; auto].
           exfalso. pose proof (O3 i (Under j i J R2)). congruence.
    + rewrite Bool.andb_false_r. destruct (IH x (conj O1 (conj O2 O3))) as (x' & ev & -> & O & D2 & S & Mt & Q). exists x', ev. split; [reflexivity|]. split; [exact O|]. split; [exact D2|]. split; [exact S|]. split.
      * intros j. rewrite Mt. cbn [existsb]. destruct (Nat.eqb_spec j i) as [->|NE]; cbn [orb]; [|reflexivity]. rewrite (proj2 (Nat.eqb_neq _ _) Nm), !Bool.andb_false_r. reflexivity.
      * intros j J. rewrite (Q j J). split; [intros (k & I & R); exists k; split; [right; exact I|exact R]|]. intros (k & [<-|I] & R1 & R2); [contradiction|exists k; auto].
Qed.
End P.

Lemma first_of_ok m l : match first_of m l with
  | None => filter (fun s => (snd s =? m)%nat) l = []
  | Some (n, r) => length l = S (length r) /\ filter (fun s => (snd s =? m)%nat) l = (n, m) :: filter (fun s => (snd s =? m)%nat) r /\ filter (fun s => negb (snd s =? m)%nat) l = filter (fun s => negb (snd s =? m)%nat) r
  end.
Proof.
  induction l as [|(n & x) l IH]; cbn [first_of filter snd length]; [reflexivity|]. destruct (Nat.eqb_spec x m) as [->|N]; cbn [negb]; [auto|].
  destruct (first_of m l) as [(k & r)|]; [|exact IH]. destruct IH as (A & B & C). cbn [length filter snd]. rewrite (proj2 (Nat.eqb_neq _ _) N). cbn [negb]. rewrite B, C. auto.
Qed.
Lemma filter_none (m : nat) (l : list (nat * nat)) : filter (fun s => (snd s =? m)%nat) l = [] -> filter (fun s => negb (snd s =? m)%nat) l = l.
Proof. induction l as [|s l IH]; [reflexivity|]. cbn [filter]. destruct (snd s =? m)%nat; [discriminate|]. cbn [negb]. intros H. rewrite (IH H). reflexivity. Qed.
Lemma release_ok m : forall fuel l, (length l <= fuel)%nat -> release fuel m l = Ok (filter (fun s => negb (snd s =? m)%nat) l, map fst (filter (fun s => (snd s =? m)%nat) l)).
Proof.
  induction fuel as [|fuel IH]; intros l L; cbn [release]; pose proof (first_of_ok m l) as F; destruct (first_of m l) as [(n & r)|].
  - destruct F as (A & _). lia.
  - rewrite F, (filter_none m l F). reflexivity.
  - destruct F as (A & B & C). rewrite IH by lia. cbn [bind]. rewrite B, C. reflexivity.
  - rewrite F, (filter_none m l F). reflexivity.
Qed.
