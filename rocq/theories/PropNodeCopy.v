(** C140: the copying of nodes. *)
From Verif Require Import Base BaseProofs Tree NodeData NodeCopy NodeCopySpec NodeCopyProofs.

Lemma copy_cases ms c acc edup mem dup p src : cn_class p = cn_class src -> well_typed c src -> sizes_fit ms c ->
  exists p', node_copy ms c acc edup mem dup p src = Ok p' /\ cn_class p' = cn_class p /\
    cn_data p' = copy_exprs edup mem 0 (cn_data src) (cn_data p) /\
    forall i, cn_vals p' i = becomes acc dup src (concat (rev c)) (cn_vals p i) i.
Proof.
  intros K T S. unfold node_copy. rewrite (proj2 (Z.eqb_eq _ _) K).
  destruct (copy_data_ok ms acc dup src c (mkCn (cn_class p) (copy_exprs edup mem 0 (cn_data src) (cn_data p)) (cn_vals p)) T S) as (p' & E & A1 & A2 & A3).
  exists p'. auto.
Qed.

(** The nodes of the examples: a class with a name (a string), a node and a pin that are saved, a number that is
    only for reading, a number that is not saved, and an expression; its parent has a number. *)
Definition e_fix (id t : Z) : param := mkParam id (fun _ => Some t).
Definition e_class : tables :=
  [[e_fix 1 4; e_fix 2 10; e_fix 3 25; e_fix 4 (2 + 512); e_fix 5 (2 + 16384); e_fix 6 27; mkParam 8 (fun s => if cn_class s =? 7 then Some 2 else None)]; [e_fix 7 2]].
Definition e_src : cnode := mkCn 7 [(1, 31, [97; 0]); (2, 4, [98; 0]); (1, 32, [99; 0]); (6, 27, [1; 2])]
  (fun i => nth (Z.to_nat i) [None; Some (VPlain [104; 0]); Some (VNode 100); Some (VPin 101 5); Some (VPlain [1]); Some (VPlain [2]); Some (VPlain [9]); Some (VPlain [3]); Some (VPlain [4])] None).
Definition e_new : cnode := mkCn 7 [(9, 4, [122; 0])] (fun i => if (4 <=? i) && (i <=? 9) then Some (VPlain [0]) else None).
Definition e_dup : list (Z * Z) := [(100, 200); (102, 202); (100, 300)].
Definition e_all (_ : Z) (_ : pval) : bool := true.
Definition e_size (i : Z) : Z := 0.
Definition e_copy : cnode := mkCn 7 [(6, 27, [1; 2; 77]); (1, 32, [99; 0]); (1, 31, [97; 0]); (9, 4, [122; 0])]
  (fun i => if (1 <=? i) && (i <=? 9) then nth (Z.to_nat i) [None; Some (VPlain [104; 0]); Some (VNode 200); Some (VPin 101 5); Some (VPlain [0]); Some (VPlain [0]); Some (VPlain [0]); Some (VPlain [3]); Some (VPlain [4]); Some (VPlain [0])] None else None).
Lemma e_typed : well_typed e_class e_src.
Proof.
  intros l m t L M. unfold e_class in L. cbn in L.
  repeat (destruct L as [<-|L]; [cbn in M; repeat (destruct M as [<-|M]; [cbn; intros [= <-]; vm_compute; repeat split; congruence|]); destruct M|]). destruct L.
Qed.
Lemma e_fit : sizes_fit e_size e_class.
Proof. intros l m _ _. unfold e_size. lia. Qed.

(** Every property that is saved with a node reads in the copy as in the source, with the nodes that were
    duplicated replaced by their duplicates, if the copy takes that value; whatever it held before. *)
Theorem C140_copied ms c acc edup mem dup p src : cn_class p = cn_class src -> well_typed c src -> sizes_fit ms c ->
  exists p', node_copy ms c acc edup mem dup p src = Ok p' /\
    forall id ty v v', saved c src id ty -> cn_vals src id = Some v -> copied dup v v' -> acc id v' = true -> cn_vals p' id = Some v'.
Proof.
  intros K T S. destruct (copy_cases ms c acc edup mem dup p src K T S) as (p' & E & _ & _ & V). exists p'. split; [exact E|].
  intros id ty v v' Hs Hv Hc Ha. rewrite V. unfold becomes. rewrite Hv. apply copied_fun in Hc. subst v'.
  rewrite (proj2 (active_saved src c id T)) by (exists ty; auto). rewrite Ha. reflexivity.
Qed.

(** Everything else stays as it was: properties that are not saved, that cannot be read from the source, or whose
    value the copy does not take; and the class. *)
Theorem C140_kept ms c acc edup mem dup p src p' : well_typed c src -> sizes_fit ms c -> node_copy ms c acc edup mem dup p src = Ok p' ->
  cn_class p' = cn_class p /\
  forall id, (forall ty, ~ saved c src id ty) \/ cn_vals src id = None \/ (forall v v', cn_vals src id = Some v -> copied dup v v' -> acc id v' = false) ->
  cn_vals p' id = cn_vals p id.
Proof.
  intros T S E. destruct (Z.eqb_spec (cn_class p) (cn_class src)) as [K|K].
  - destruct (copy_cases ms c acc edup mem dup p src K T S) as (q & E' & C & _ & V). rewrite E' in E. injection E as <-. split; [exact C|].
    intros id H. rewrite V. unfold becomes. destruct (cn_vals src id) as [v|] eqn:Hv; [|reflexivity].
    destruct (existsb _ _) eqn:X; [|reflexivity]. apply active_saved in X as (ty & X); [|auto].
    destruct H as [H|[H|H]]; [destruct (H ty X)|discriminate|]. rewrite (H v _ eq_refl (copied_rv dup v)). reflexivity.
  - unfold node_copy in E. rewrite (proj2 (Z.eqb_neq _ _) K) in E. injection E as <-. auto.
Qed.

(** A node of another class is not changed at all. *)
Theorem C140_other ms c acc edup mem dup p src : cn_class p <> cn_class src -> node_copy ms c acc edup mem dup p src = Ok p.
Proof. intros K. unfold node_copy. rewrite (proj2 (Z.eqb_neq _ _) K). reflexivity. Qed.

(** No property that was copied points to a node that was duplicated, when no duplicate is itself one of the
    originals. *)
Theorem C140_references ms c acc edup mem dup p src p' id ty v w : cn_class p = cn_class src -> well_typed c src -> sizes_fit ms c ->
  (forall o d, In (o, d) dup -> ~ In d (map Datatypes.fst dup)) ->
  node_copy ms c acc edup mem dup p src = Ok p' -> saved c src id ty -> cn_vals src id = Some v -> (forall v', copied dup v v' -> acc id v' = true) ->
  cn_vals p' id = Some w ->
  match w with VNode k | VPin k _ => ~ In k (map Datatypes.fst dup) | VPlain _ => True end.
Proof.
  intros K T S D E Hs Hv Ha Hw. destruct (C140_copied ms c acc edup mem dup p src K T S) as (q & E' & V). rewrite E' in E. injection E as ->.
  rewrite (V id ty v (rv dup v) Hs Hv (copied_rv dup v) (Ha _ (copied_rv dup v))) in Hw. injection Hw as <-.
  assert (G : forall k, ~ In (dup_replace dup k) (map Datatypes.fst dup)).
  { intros k. pose proof (replace_ok dup k) as R. revert R. generalize (dup_replace dup k). intros x [a b d -> H|H]; [|exact H].
    apply (D k). apply in_app_iff. right. left. reflexivity. }
  destruct v; cbn [rv]; auto.
Qed.

(** The copy has the expressions of the source in front of its own data, in the opposite order, and nothing else of its
    data changes. *)
Theorem C140_data ms c acc edup mem dup p src : cn_class p = cn_class src -> well_typed c src -> sizes_fit ms c -> (forall k, mem k = true) ->
  exists p', node_copy ms c acc edup mem dup p src = Ok p' /\ cn_data p' = rev (map (held edup) (expressions src)) ++ cn_data p.
Proof.
  intros K T S M. destruct (copy_cases ms c acc edup mem dup p src K T S) as (p' & E & _ & D & _). exists p'. split; [exact E|].
  rewrite D. apply copy_exprs_ok. exact M.
Qed.

(** Without memory expressions are left out, and none is made up. *)
Theorem C140_memory ms c acc edup mem dup p src : cn_class p = cn_class src -> well_typed c src -> sizes_fit ms c ->
  exists p' x, node_copy ms c acc edup mem dup p src = Ok p' /\ cn_data p' = x ++ cn_data p /\
    forall e, In e x -> exists o, In o (cn_data src) /\ expression o = true /\ e = held edup o.
Proof.
  intros K T S. destruct (copy_cases ms c acc edup mem dup p src K T S) as (p' & E & _ & D & _).
  destruct (copy_exprs_sub edup mem (cn_data src) 0 (cn_data p)) as (x & X & I). exists p', x. split; [exact E|]. split; [congruence|].
  intros e H. apply I in H. apply in_map_iff in H as (o & <- & H). apply filter_In in H as (H1 & H2). exists o. auto.
Qed.

Lemma held_expr edup l : filter expression (map (held edup) (filter expression l)) = map (held edup) (filter expression l).
Proof.
  induction l as [|e l IH]; cbn [filter]; [reflexivity|]. destruct (expression e) eqn:X; [|exact IH]. cbn [map filter].
  assert (Y : expression (held edup e) = true). { unfold expression, held in *. cbn [Datatypes.fst Datatypes.snd]. rewrite Z.mod_mod by lia. exact X. }
  rewrite Y, IH. reflexivity.
Qed.
Lemma filter_rev_ {A} (f : A -> bool) l : filter f (rev l) = rev (filter f l).
Proof. induction l as [|a l IH]; [reflexivity|]. cbn [rev filter]. rewrite filter_app, IH. cbn [filter]. destruct (f a); cbn [rev]; [reflexivity|apply app_nil_r]. Qed.

(** A copy of a copy has the expressions in the order of the source, in which they are to be evaluated; here the types
    of the properties depend on the class alone. *)
Theorem C140_twice ms c acc edup mem dup p q src : cn_class p = cn_class src -> cn_class q = cn_class src ->
  well_typed c src -> well_typed c p -> sizes_fit ms c ->
  (forall l m x y, In l c -> In m l -> cn_class x = cn_class y -> q_type m x = q_type m y) -> (forall k, mem k = true) -> cn_data p = [] -> cn_data q = [] ->
  exists p' q', node_copy ms c acc edup mem dup p src = Ok p' /\ node_copy ms c acc edup mem dup q p' = Ok q' /\
    cn_data q' = map (held edup) (map (held edup) (expressions src)).
Proof.
  intros K1 K2 T Tp S Q M D1 D2. destruct (copy_cases ms c acc edup mem dup p src K1 T S) as (p' & E & C & D & V).
  rewrite copy_exprs_ok, D1, app_nil_r in D by auto.
  assert (T' : well_typed c p').
  { intros l m t L I E'. rewrite (Q l m p' src L I ltac:(congruence)) in E'. pose proof (T l m t L I E') as (A1 & A2 & A3).
    rewrite (Q l m src p L I ltac:(congruence)) in E'. pose proof (Tp l m t L I E') as (_ & _ & B3).
    split; [exact A1|]. split; [exact A2|]. rewrite V. unfold becomes. destruct (cn_vals src (q_id m)) as [v|]; [|exact B3].
    destruct (_ && _); [|exact B3]. destruct v; exact A3. }
  destruct (C140_data ms c acc edup mem dup q p') as (q' & E2 & F); try auto; [congruence|].
  exists p', q'. split; [exact E|]. split; [exact E2|]. rewrite F, D2, app_nil_r. unfold expressions. rewrite D, filter_rev_, held_expr, map_rev, rev_involutive. reflexivity.
Qed.

Example C140_twice_ex : let b := mkCn 7 [] (fun _ => None) in
  well_typed e_class b /\ (forall l m x y, In l e_class -> In m l -> cn_class x = cn_class y -> q_type m x = q_type m y) /\
  exists p', node_copy e_size e_class e_all (fun b => b) (fun _ => true) e_dup b e_src = Ok p' /\
  exists q', node_copy e_size e_class e_all (fun b => b) (fun _ => true) e_dup b p' = Ok q' /\ expressions q' = expressions e_src /\ expressions p' = rev (expressions e_src).
Proof.
  split; [|split].
  - intros l m t L M. unfold e_class in L. cbn in L.
    repeat (destruct L as [<-|L]; [cbn in M; repeat (destruct M as [<-|M]; [cbn; intros [= <-]; vm_compute; repeat split; congruence|]); destruct M|]). destruct L.
  - intros l m x y L M K. unfold e_class in L. cbn in L.
    repeat (destruct L as [<-|L]; [cbn in M; repeat (destruct M as [<-|M]; [cbn; rewrite ?K; reflexivity|]); destruct M|]). destruct L.
  - eexists. split; [vm_compute; reflexivity|]. eexists. split; [vm_compute; reflexivity|]. split; vm_compute; reflexivity.
Qed.

(** Copying once more changes no property. *)
Theorem C140_again ms c acc edup mem dup p src p' p'' : cn_class p = cn_class src -> well_typed c src -> sizes_fit ms c ->
  node_copy ms c acc edup mem dup p src = Ok p' -> node_copy ms c acc edup mem dup p' src = Ok p'' -> forall id, cn_vals p'' id = cn_vals p' id.
Proof.
  intros K T S E1 E2 id. destruct (copy_cases ms c acc edup mem dup p src K T S) as (q & E & C & _ & V). rewrite E in E1. injection E1 as ->.
  destruct (copy_cases ms c acc edup mem dup p' src (eq_trans C K) T S) as (q' & E' & _ & _ & V'). rewrite E' in E2. injection E2 as ->.
  rewrite V', V. unfold becomes. destruct (cn_vals src id) as [v|]; [|reflexivity]. destruct (_ && _); reflexivity.
Qed.

Example C140_ex : exists p', node_copy e_size e_class e_all (fun b => b ++ [77]) (fun _ => true) e_dup e_new e_src = Ok p' /\
  cn_data p' = cn_data e_copy /\ map (fun i => cn_vals p' (Z.of_nat i)) (seq 0 11) = map (fun i => cn_vals e_copy (Z.of_nat i)) (seq 0 11) /\
  saved e_class e_src 2 10 /\ copied e_dup (VNode 100) (VNode 200) /\ ~ saved e_class e_src 4 2.
Proof.
  eexists. split; [vm_compute; reflexivity|]. split; [reflexivity|]. split; [vm_compute; reflexivity|]. split; [|split].
  - exists (hd [] e_class), (e_fix 2 10), 10. repeat (split; [first [left; reflexivity|right; left; reflexivity|reflexivity|lia]|]). exists 8. split; [reflexivity|lia].
  - constructor. apply (sf_dup _ _ [] [(102, 202); (100, 300)] 200); auto.
  - intros (l & m & t & L & M & I & Q & _ & B & _). unfold e_class in L. cbn in L.
    repeat (destruct L as [<-|L]; [cbn in M; repeat (destruct M as [<-|M]; [cbn in I, Q; try discriminate; injection Q as <-; discriminate|]); destruct M|]). destruct L.
Qed.

(** One copy alone has its expressions in the opposite order: of two values given to one name the other is found
    first. *)
Theorem C140_order_refuted : ~ forall ms c acc edup mem dup p src p', well_typed c src -> sizes_fit ms c -> cn_class p = cn_class src -> cn_data p = [] ->
  (forall k, mem k = true) -> node_copy ms c acc edup mem dup p src = Ok p' -> expressions p' = expressions src.
Proof.
  intros H. specialize (H e_size [] e_all (fun b => b) (fun _ => true) [] (mkCn 7 [] (fun _ => None)) (mkCn 7 [(1, 31, [97; 0]); (1, 31, [98; 0])] (fun _ => None))
    (mkCn 7 [(1, 31, [98; 0]); (1, 31, [97; 0])] (fun _ => None))).
  assert (X : well_typed [] (mkCn 7 [(1, 31, [97; 0]); (1, 31, [98; 0])] (fun _ => None))) by (intros l m t []).
  assert (Y : sizes_fit e_size []) by (intros l m []).
  specialize (H X Y eq_refl eq_refl (fun _ => eq_refl) eq_refl). discriminate.
Qed.

(** A property declared with more bytes than the buffer holds makes the copying write behind it. *)
Theorem C140_size_refuted : ~ forall ms c acc edup mem dup p src, well_typed c src -> cn_class p = cn_class src ->
  exists p', node_copy ms c acc edup mem dup p src = Ok p'.
Proof.
  intros H. destruct (H (fun _ => 5000) [[e_fix 1 16]] e_all (fun b => b) (fun _ => true) [] e_new e_src) as (p' & E); [|reflexivity|vm_compute in E; discriminate].
  intros l m t [<-|[]] [<-|[]] [= <-]. vm_compute. repeat split; congruence.
Qed.

Print Assumptions C140_copied. Print Assumptions C140_kept. Print Assumptions C140_other. Print Assumptions C140_references.
Print Assumptions C140_data. Print Assumptions C140_memory. Print Assumptions C140_twice. Print Assumptions C140_again.
Print Assumptions C140_order_refuted. Print Assumptions C140_size_refuted.
