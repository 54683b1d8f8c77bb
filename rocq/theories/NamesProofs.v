(** Proofs about finding nodes by name. *)
From Verif Require Import Base BaseProofs Tree Str StrSpec StrProofs StrProofs2 Names NamesSpec.

Lemma same_ok a b : text a -> text b -> (same a b = true <-> same_text a b).
Proof.
  intros Ha Hb. unfold same. destruct (icmp_gen a b [] [] Ha Hb) as (r & _ & S & E). rewrite E.
  rewrite <- (order_eq a b Ha Hb). red in S. rewrite <- S, Z.eqb_eq. split; [intros ->; reflexivity|apply Z.compare_eq].
Qed.

(** Induction over trees. *)
Section Ind.
Context (P : ntree -> Prop) (H : forall a kids, Forall P kids -> P (NT a kids)).
Fixpoint ntree_all (t : ntree) : P t :=
  match t with
  | NT a kids => H a kids ((fix go (l : list ntree) : Forall P l :=
                              match l with [] => Forall_nil _ | k :: l => Forall_cons _ (ntree_all k) (go l) end) kids)
  end.
End Ind.

(** The loops over children, one after the other. *)
Fixpoint scan (f : ntree -> option place) (n : nat) (l : list ntree) : option place :=
  match l with [] => None | k :: l => match f k with Some p => Some (n :: p) | None => scan f (S n) l end end.
Definition look (name : list Z) (k : ntree) : option place :=
  match a_name (attrs_of k) with Some s => if same name s then Some [] else None | None => find_child name k end.

Lemma find_child_eq name a kids : find_child name (NT a kids) = scan (look name) 0 kids.
Proof.
  cbn [find_child]. generalize 0%nat. induction kids as [|k kids IH]; intros n; cbn [scan]; [reflexivity|].
  unfold look at 1. destruct (a_name (attrs_of k)) as [s|].
  - destruct (same name s); [reflexivity|apply IH].
  - destruct (find_child name k); [reflexivity|apply IH].
Qed.
Lemma child_by_class_eq class a kids : child_by_class class (NT a kids) = if a_is a class then Some [] else scan (child_by_class class) 0 kids.
Proof.
  cbn [child_by_class attrs_of]. destruct (a_is a class); [reflexivity|]. generalize 0%nat.
  induction kids as [|k kids IH]; intros n; cbn [scan]; [reflexivity|]. destruct (child_by_class class k); [reflexivity|apply IH].
Qed.
Lemma child_by_name_eq rec class name a kids : name <> [] ->
  child_by_name rec class name (NT a kids) =
    match scan (fun k => if named class name k then Some [] else None) 0 kids with
    | Some p => Some p
    | None => if rec then scan (child_by_name true class name) 0 kids else None
    end.
Proof.
  intros N. cbn [child_by_name]. destruct name as [|c name]; [congruence|].
  assert (E : forall n l, first_kid (fun n k => if named class (c :: name) k then Some [n] else None) n l = scan (fun k => if named class (c :: name) k then Some [] else None) n l).
  { intros n l. revert n. induction l as [|k l IH]; intros n; cbn [first_kid scan]; [reflexivity|].
    destruct (named class (c :: name) k); [reflexivity|apply IH]. }
  rewrite E. destruct (scan _ 0 kids); [reflexivity|]. destruct rec; [|reflexivity]. generalize 0%nat.
  induction kids as [|k kids IH]; intros n; cbn [scan]; [reflexivity|]. destruct (child_by_name true class (c :: name) k); [reflexivity|apply IH].
Qed.

Lemma scan_some f n l p : scan f n l = Some p ->
  exists i k q, p = (n + i)%nat :: q /\ nth_error l i = Some k /\ f k = Some q /\
    forall j k', (j < i)%nat -> nth_error l j = Some k' -> f k' = None.
Proof.
  revert n. induction l as [|k l IH]; intros n; cbn [scan]; [discriminate|].
  destruct (f k) as [q|] eqn:E.
  - intros [= <-]. exists O, k, q. rewrite Nat.add_0_r. repeat split; auto. intros j k' J. lia.
  - intros X. apply IH in X. destruct X as (i & k1 & q & -> & A & B & C). exists (S i), k1, q. split; [f_equal; lia|]. split; [auto|]. split; [auto|].
    intros [|j] k' J; cbn; [congruence|]. apply C. lia.
Qed.
Lemma scan_none f n l : scan f n l = None -> forall j k, nth_error l j = Some k -> f k = None.
Proof.
  revert n. induction l as [|k l IH]; intros n; cbn [scan]; intros E j k' J; [destruct j; discriminate|].
  destruct (f k) eqn:F; [discriminate|]. destruct j; cbn in J; [congruence|]. eapply IH; eauto.
Qed.

Lemma texts_kid a kids i k : texts_only (NT a kids) -> nth_error kids i = Some k -> texts_only k.
Proof. intros T E p k' s H. apply (T (i :: p)). cbn. rewrite E. auto. Qed.

(** ** FindChild *)
Lemma find_child_spec name t : text name -> texts_only t ->
  match find_child name t with Some p => first_by name t p | None => forall p, ~ goes_by name t p end.
Proof.
  intros Tn. induction t as [a kids IH] using ntree_all. intros T. rewrite find_child_eq.
  rewrite Forall_forall in IH.
  assert (L : forall i k, nth_error kids i = Some k ->
    match look name k with
    | Some q => goes_by name (NT a kids) (i :: q) /\ forall q', goes_by name (NT a kids) (i :: q') -> q' = q \/ before q q'
    | None => forall q', ~ goes_by name (NT a kids) (i :: q')
    end).
  { intros i k E. pose proof (texts_kid a kids i k T E) as Tk.
    specialize (IH k (nth_error_In _ _ E) Tk). unfold look.
    destruct (a_name (attrs_of k)) as [s|] eqn:S.
    - assert (Ts : text s) by (apply (T [i] k s); [cbn; rewrite E; reflexivity|auto]).
      destruct (same name s) eqn:M.
      + apply same_ok in M; auto. split.
        * eapply goes_here; cbn; eauto.
        * intros q' G. inversion G as [t i' k' s' E' S' M'|t i' k' p' E' S' G']; subst; cbn in E'; rewrite E in E'; injection E' as <-; [auto|congruence].
      + intros q' G. inversion G as [t i' k' s' E' S' M'|t i' k' p' E' S' G']; subst; cbn in E'; rewrite E in E'; injection E' as <-; [|congruence].
        rewrite S in S'. injection S' as <-. apply same_ok in M'; auto. congruence.
    - destruct (find_child name k) as [q|].
      + destruct IH as (G1 & G2). split; [eapply goes_in; cbn; eauto|].
        intros q' G. inversion G as [t i' k' s' E' S' M'|t i' k' p' E' S' G']; subst; cbn in E'; rewrite E in E'; injection E' as <-; [congruence|auto].
      + intros q' G. inversion G as [t i' k' s' E' S' M'|t i' k' p' E' S' G']; subst; cbn in E'; rewrite E in E'; injection E' as <-; [congruence|eapply IH; eauto]. }
  assert (N : forall p, goes_by name (NT a kids) p -> exists i k q, p = i :: q /\ nth_error kids i = Some k).
  { intros p G. inversion G; subst; eauto. }
  destruct (scan (look name) 0 kids) as [p|] eqn:Sc.
  - apply scan_some in Sc. destruct Sc as (i & k & q & -> & E & F & Z). cbn [Nat.add].
    pose proof (L i k E) as Li. rewrite F in Li. destruct Li as (L1 & L2). split; [auto|].
    intros p G. destruct (N p G) as (j & k' & q' & -> & E').
    destruct (Nat.lt_trichotomy j i) as [J|[->|J]].
    + exfalso. specialize (Z j k' J E'). specialize (L j k' E'). rewrite Z in L. eapply L; eauto.
    + destruct (L2 q' G) as [->|B]; [auto|]. right. apply before_later. auto.
    + right. constructor. auto.
  - intros p G. destruct (N p G) as (j & k' & q' & -> & E'). pose proof (scan_none _ _ _ Sc j k' E') as Z.
    specialize (L j k' E'). rewrite Z in L. eapply L; eauto.
Qed.

Lemma before_irr p : ~ before p p.
Proof. induction p as [|i p IH]; intros B; inversion B; subst; [lia|auto]. Qed.
Lemma before_asym p q : before p q -> ~ before q p.
Proof. intros B. induction B as [i j p q L|i p q B IH]; intros C; inversion C; subst; try lia; auto. Qed.
Lemma first_unique name t p q : first_by name t p -> first_by name t q -> p = q.
Proof.
  intros (A & B) (C & D). destruct (B q C) as [->|X]; [auto|]. destruct (D p A) as [->|Y]; [auto|]. exfalso. exact (before_asym _ _ X Y).
Qed.
Lemma find_child_first name t p : text name -> texts_only t -> first_by name t p -> find_child name t = Some p.
Proof.
  intros Tn T F. pose proof (find_child_spec name t Tn T) as S. destruct (find_child name t) as [q|].
  - f_equal. eapply first_unique; eauto.
  - exfalso. apply (S p). apply F.
Qed.
Lemma goes_by_at name t p : goes_by name t p -> exists k, node_at t p = Some k.
Proof. induction 1 as [t i k s E S M|t i k p E S G IH]; cbn; rewrite E; eauto. Qed.

(** ** NodeTree_ChildByClass *)
Lemma child_by_class_spec class t :
  match child_by_class class t with
  | Some p => has_class class t p /\ forall q, has_class class t q -> not_after p q
  | None => forall q, ~ has_class class t q
  end.
Proof.
  induction t as [a kids IH] using ntree_all. rewrite child_by_class_eq. rewrite Forall_forall in IH.
  destruct (a_is a class) eqn:A.
  - split; [exists (NT a kids); auto|]. intros q _. right. exists q. reflexivity.
  - destruct (scan (child_by_class class) 0 kids) as [p|] eqn:Sc.
    + apply scan_some in Sc. destruct Sc as (i & k & q & -> & E & F & Z). cbn [Nat.add].
      pose proof (IH k (nth_error_In _ _ E)) as Ik. rewrite F in Ik. destruct Ik as ((k0 & H1 & H2) & H3).
      split; [exists k0; cbn; rewrite E; auto|].
      intros [|j q'] (k1 & K1 & K2); [cbn in K1; injection K1 as <-; cbn in K2; congruence|].
      cbn in K1. destruct (nth_error kids j) as [k'|] eqn:E'; [|discriminate].
      destruct (Nat.lt_trichotomy j i) as [J|[->|J]].
      * exfalso. specialize (Z j k' J E'). specialize (IH k' (nth_error_In _ _ E')). rewrite Z in IH. apply (IH q'). exists k1. auto.
      * rewrite E in E'. injection E' as <-. destruct (H3 q') as [B|(r & ->)]; [exists k1; auto|left; apply before_later; auto|right; exists r; reflexivity].
      * left. constructor. auto.
    + intros [|j q'] (k1 & K1 & K2); [cbn in K1; injection K1 as <-; cbn in K2; congruence|].
      cbn in K1. destruct (nth_error kids j) as [k'|] eqn:E'; [|discriminate].
      pose proof (scan_none _ _ _ Sc j k' E') as Z. specialize (IH k' (nth_error_In _ _ E')). rewrite Z in IH. apply (IH q'). exists k1. auto.
Qed.

(** ** NodeTree_ChildByName *)
Lemma named_iff class name a kids i k : text name -> texts_only (NT a kids) -> nth_error kids i = Some k ->
  (named class name k = true <-> bears class name (NT a kids) [i]).
Proof.
  intros Tn T E. unfold named, bears. cbn. rewrite E. split.
  - intros N. apply andb_prop in N. destruct N as (N1 & N2). destruct (a_name (attrs_of k)) as [s|] eqn:S; [|discriminate].
    assert (Ts : text s) by (apply (T [i] k s); [cbn; rewrite E; reflexivity|auto]).
    split; [discriminate|]. exists k, s. apply same_ok in N2; auto.
  - intros (_ & k0 & s & [= <-] & C & S & M). rewrite C, S. cbn.
    assert (Ts : text s) by (apply (T [i] k s); [cbn; rewrite E; reflexivity|auto]). apply same_ok; auto.
Qed.
Lemma bears_kid class name a kids i k p : nth_error kids i = Some k -> p <> [] ->
  (bears class name (NT a kids) (i :: p) <-> bears class name k p).
Proof. intros E N. unfold bears. cbn. rewrite E. split; intros (_ & X); split; auto; discriminate. Qed.

Lemma child_by_name_spec class name t : name <> [] -> text name -> texts_only t ->
  match child_by_name true class name t with
  | Some p => bears class name t p
  | None => forall p, ~ bears class name t p
  end /\
  match child_by_name false class name t with
  | Some p => exists i, p = [i] /\ bears class name t [i] /\ forall j, bears class name t [j] -> (i <= j)%nat
  | None => forall i, ~ bears class name t [i]
  end /\
  (forall i, bears class name t [i] -> child_by_name true class name t = child_by_name false class name t).
Proof.
  intros Nn Tn. induction t as [a kids IH] using ntree_all. intros T. rewrite !child_by_name_eq by auto. rewrite Forall_forall in IH.
  destruct (scan (fun k => if named class name k then Some [] else None) 0 kids) as [p|] eqn:Sc.
  - apply scan_some in Sc. destruct Sc as (i & k & q & -> & E & F & Z). cbn [Nat.add].
    destruct (named class name k) eqn:Nk; [|discriminate]. injection F as <-. pose proof Nk as B. apply (named_iff class name a kids i k) in B; auto.
    split; [auto|]. split; [|auto]. exists i. split; [auto|]. split; [auto|]. intros j Bj.
    destruct (Nat.le_gt_cases i j); [auto|]. exfalso. pose proof Bj as (_ & k' & s & K & _). cbn in K.
    destruct (nth_error kids j) as [k''|] eqn:E'; [|discriminate]. specialize (Z j k'' H E').
    apply (named_iff class name a kids j k'') in Bj; auto. rewrite Bj in Z. discriminate.
  - assert (D : forall i, ~ bears class name (NT a kids) [i]).
    { intros i B. pose proof B as (_ & k' & s & K & _). cbn in K. destruct (nth_error kids i) as [k''|] eqn:E'; [|discriminate].
      pose proof (scan_none _ _ _ Sc i k'' E') as Z. cbn in Z. apply (named_iff class name a kids i k'') in B; auto. rewrite B in Z. discriminate. }
    split; [|split; [auto|intros i B; exfalso; eapply D; eauto]].
    destruct (scan (child_by_name true class name) 0 kids) as [p|] eqn:Sd.
    + apply scan_some in Sd. destruct Sd as (i & k & q & -> & E & F & Z). cbn [Nat.add].
      destruct (IH k (nth_error_In _ _ E) (texts_kid a kids i k T E)) as (I1 & _). rewrite F in I1.
      apply (bears_kid class name a kids i k q E); auto. destruct I1 as (X & _). auto.
    + intros [|i [|i' p]] B; [destruct B as (B & _); congruence|eapply D; eauto|].
      pose proof B as (_ & k' & s & K & _). cbn in K. destruct (nth_error kids i) as [k''|] eqn:E'; [|discriminate].
      pose proof (scan_none _ _ _ Sd i k'' E') as Z. destruct (IH k'' (nth_error_In _ _ E') (texts_kid a kids i k'' T E')) as (I1 & _). rewrite Z in I1.
      apply (I1 (i' :: p)). apply (bears_kid class name a kids i k''); auto. discriminate.
Qed.
