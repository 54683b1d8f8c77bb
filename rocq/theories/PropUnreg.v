(** C144: modules that leave. *)
From Verif Require Import Base Tree Unreg UnregSpec UnregProofs.

(** A module leaves: it ends; its classes lose their tables, no other does; the classes that are no longer ready are its own and
    those derived from them; the deletion functions called are exactly those of these classes, each once, and that of a class behind
    those of all derived from it; its singletons are released, each once and in order, and no other; and all is in order. *)
Theorem C144_leaves table level incl m x : tree table level -> in_order table x -> goes table incl m ->
  exists x' released ev, unregister table incl m x = Ok (x', (released, ev)) /\ in_order table x' /\
    (forall i, (i < length table)%nat -> x_meta x' i = x_meta x i && negb (k_module (cl table i) =? m)%nat) /\
    (forall i, x_inited x' i = true <-> x_inited x i = true /\ forall k, k_module (cl table k) = m -> ~ under table i k) /\
    (forall i, In i ev <-> x_inited x i = true /\ exists k, k_module (cl table k) = m /\ under table i k) /\ NoDup ev /\ children_first table ev /\
    x_singles x' = filter (fun s => negb (snd s =? m)%nat) (x_singles x) /\ released = map fst (filter (fun s => (snd s =? m)%nat) (x_singles x)).
Proof.
  intros T O G. unfold unregister. rewrite release_ok by lia. cbn [bind Datatypes.fst Datatypes.snd].
  destruct (leave_ok table level T incl m G (seq 0 (length table)) (mkCtx (x_inited x) (x_meta x) (filter (fun s => negb (snd s =? m)%nat) (x_singles x)))) as (x' & ev & -> & O' & D & S & M & Q); [exact O|].
  cbn [bind Datatypes.fst Datatypes.snd x_inited x_meta x_singles] in *. exists x'. eexists _, ev. split; [reflexivity|]. split; [exact O'|].
  assert (Par : forall j k, x_inited x j = true -> under table j k -> x_inited x k = true) by (intros j k J U; induction U as [|j a k P U IHU]; [exact J|apply IHU; exact (proj1 (proj2 O) j a J P)]).
  assert (Q' : forall i, x_inited x i = true -> (x_inited x' i = false <-> exists k, k_module (cl table k) = m /\ under table i k)).
  { intros i I. rewrite (Q i I). split; [intros (k & _ & R); exists k; exact R|]. intros (k & R1 & R2). exists k. split; [|auto]. apply in_seq. pose proof (proj1 O k (Par i k I R2)). lia. }
  split.
  { intros i I. rewrite M. replace (existsb (Nat.eqb i) (seq 0 (length table))) with true; [reflexivity|]. symmetry. apply existsb_exists. exists i. split; [apply in_seq; lia|apply Nat.eqb_refl]. }
  split.
  { intros i. split.
    - intros I. pose proof (d_less _ _ _ _ D i I) as I0. split; [exact I0|]. intros k K U. assert (X : x_inited x' i = false) by (apply (Q' i I0); eauto). congruence.
    - intros (I & N). destruct (x_inited x' i) eqn:X; [reflexivity|]. apply (Q' i I) in X as (k & K & U). exfalso. exact (N k K U). }
  split.
  { intros i. rewrite (d_ev _ _ _ _ D i). split; intros (I & X); (split; [exact I|]); apply (Q' i I), X. }
  split; [apply (d_once _ _ _ _ D)|]. split; [apply (d_first _ _ _ _ D)|]. split; [exact S|reflexivity].
Qed.

(** Modules that leave one after the other, as NodeContext_Cleanup and NodeContext_Done have them. *)
Fixpoint all_leave (table : list cls) (l : list (bool * nat)) (x : ctx) : res (ctx * list nat) :=
  match l with
  | [] => Ok (x, [])
  | (incl, m) :: l => do r <- unregister table incl m x; do q <- all_leave table l (fst r); Ok (fst q, snd (snd r) ++ snd q)
  end.
(** Over all of them no deletion function is called twice; once the modules of all classes have left, no class is ready, and that of
    each class that was has been called. *)
Theorem C144_all table level l : tree table level -> (forall incl m, In (incl, m) l -> goes table incl m) -> forall x, in_order table x ->
  exists x' ev, all_leave table l x = Ok (x', ev) /\ in_order table x' /\ NoDup ev /\ children_first table ev /\
    (forall i, In i ev <-> x_inited x i = true /\ x_inited x' i = false) /\
    ((forall i, (i < length table)%nat -> In (k_module (cl table i)) (map snd l)) -> forall i, x_inited x' i = false /\ (x_inited x i = true -> In i ev)).
Proof.
  intros T G x O.
  assert (H : exists x' ev, all_leave table l x = Ok (x', ev) /\ in_order table x' /\ did table (x_inited x) (x_inited x') ev /\ forall i, In (k_module (cl table i)) (map snd l) -> x_inited x' i = false).
  { revert x O. induction l as [|(incl & m) l IH]; intros x O; cbn [all_leave map snd].
    - exists x, []. split; [reflexivity|]. split; [exact O|]. split; [apply did_nil; split; apply O|]. intros i [].
    - destruct (C144_leaves table level incl m x T O (G incl m (or_introl eq_refl))) as (x1 & rl & e1 & -> & O1 & _ & I1 & E1 & N1 & F1 & _). cbn [bind fst snd].
      destruct (IH (fun a b I => G a b (or_intror I)) x1 O1) as (x2 & e2 & -> & O2 & D2 & C2). cbn [bind fst snd]. exists x2, (e1 ++ e2). split; [reflexivity|]. split; [exact O2|].
      assert (D1 : did table (x_inited x) (x_inited x1) e1).
      { split; [split; apply O1|intros i I; apply I1, I| |exact N1|exact F1]. intros i. rewrite E1. split; intros (I & X); (split; [exact I|]).
        - destruct (x_inited x1 i) eqn:Y; [|reflexivity]. exfalso. apply I1 in Y as (_ & Y). destruct X as (k & K & U). exact (Y k K U).
        - destruct (E1 i) as (_ & _). assert (P : ~ (forall k, k_module (cl table k) = m -> ~ under table i k)) by (intros N; assert (x_inited x1 i = true) by (apply I1; auto); congruence).
          destruct (in_dec Nat.eq_dec i e1) as [J|J]; [apply E1 in J; apply J|]. exfalso. apply P. intros k K U. apply J, E1. split; [exact I|eauto]. }
      split; [exact (did_app table _ _ _ _ _ D1 D2)|]. intros i [E|J]; [|exact (C2 i J)]. destruct (x_inited x2 i) eqn:Y; [|reflexivity]. exfalso. apply (d_less _ _ _ _ D2) in Y. apply I1 in Y as (_ & Y). exact (Y i (eq_sym E) (un_self _ _)). }
  destruct H as (x' & ev & R & O' & D & C). exists x', ev. split; [exact R|]. split; [exact O'|]. split; [apply (d_once _ _ _ _ D)|]. split; [apply (d_first _ _ _ _ D)|]. split; [apply (d_ev _ _ _ _ D)|].
  intros A i. assert (X : x_inited x' i = false) by (destruct (x_inited x' i) eqn:Y; [|reflexivity]; rewrite <- Y; apply C, A; apply O'; exact Y). split; [exact X|]. intros I. apply (d_ev _ _ _ _ D). auto.
Qed.

(** A module with a class derived from the class of modules: when it leaves by NodeContext_Cleanup the class stays ready without its table,
    and the table is read through NULL when the last module leaves. *)
Definition bad_table : list cls := [mkCls None 0 true; mkCls (Some 0%nat) 1 true].
Definition bad_ctx : ctx := mkCtx (fun i => (i <? 2)%nat) (fun i => (i <? 2)%nat) [].
Theorem C144_module_refuted : tree bad_table (fun i => if (i =? 1)%nat then 1%nat else 0%nat) /\ in_order bad_table bad_ctx /\ all_leave bad_table [(false, 1%nat); (true, 0%nat)] bad_ctx = Bad.
Proof.
  split; [|split].
  - split; [intros i; destruct (i =? 1)%nat; cbn; lia|]. intros [|[|[|i]]] j; cbn; try discriminate. intros [= <-]. cbn. lia.
  - split; [intros i H; apply (proj1 (Nat.ltb_lt i 2) H)|]. split; [|intros i H; exact H]. intros [|[|[|i]]] j; cbn; try discriminate. intros _ [= <-]. reflexivity.
  - reflexivity.
Qed.

(** Three modules; classes 2 and 3 of module 1 derive from class 1 of module 0, class 0 of module 2 from class 3. *)
Definition ex_table : list cls := [mkCls (Some 3%nat) 2 false; mkCls None 0 false; mkCls (Some 1%nat) 1 false; mkCls (Some 1%nat) 1 false].
Definition ex_level (i : nat) : nat := nth i [2; 0; 1; 1]%nat 0%nat.
Definition ex_ctx : ctx := mkCtx (fun i => (i <? 4)%nat && negb (i =? 2)%nat) (fun i => (i <? 4)%nat) [(10, 1); (11, 0); (12, 1); (13, 2)]%nat.
Example C144_ex : tree ex_table ex_level /\ in_order ex_table ex_ctx /\ goes ex_table false 1 /\
  match unregister ex_table false 1 ex_ctx with
  | Ok (x, (rl, ev)) => rl = [10; 12]%nat /\ ev = [0; 3]%nat /\ x_singles x = [(11, 0); (13, 2)]%nat /\ map (x_inited x) [0; 1; 2; 3]%nat = [false; true; false; false] /\ map (x_meta x) [0; 1; 2; 3]%nat = [true; true; false; false]
  | _ => False
  end /\ match all_leave ex_table [(false, 1); (false, 2); (true, 0)]%nat ex_ctx with Ok (_, ev) => ev = [0; 3; 1]%nat | _ => False end.
Proof.
  split; [|split; [|split]].
  - split; [intros [|[|[|[|[|i]]]]]; cbn; lia|]. intros [|[|[|[|[|i]]]]] j; cbn; try discriminate; intros [= <-]; cbn; lia.
  - split; [intros i H; apply Bool.andb_true_iff in H as (H & _); apply (proj1 (Nat.ltb_lt i 4) H)|]. split; [|intros i H; apply Bool.andb_true_iff in H as (H & _); exact H].
    intros [|[|[|[|[|i]]]]] j; cbn; try discriminate; intros _ [= <-]; reflexivity.
  - right. intros [|[|[|[|[|i]]]]] k _ _; reflexivity.
  - vm_compute. repeat split.
Qed.

Print Assumptions C144_leaves.
Print Assumptions C144_all.
Print Assumptions C144_module_refuted.
