(** C139: nodes made and let go, over every history. *)
From Verif Require Import Base BaseProofs Make MakeSpec MakeProofs.

(** A node that is given was made by all the creation functions of its class and of its parents, parents
    first, and each of them worked. *)
Theorem C139_made l rooted c x w n : make (runs l) rooted c x = (w, Some n) ->
  calls (f_works x) (w_log (runs l)) (all_creators c) (w_log w) /\ w_nodes w n = Some c /\ w_nodes (runs l) n = None /\
  forall k, k <> n -> w_nodes w k = w_nodes (runs l) k.
Proof.
  intros E. apply make_cases in E as [(D & _)|(_ & _ & [(D & _)|([= ->] & C & -> & _)])]; [discriminate|discriminate|].
  split; [auto|]. rewrite Nat.eqb_refl. split; [auto|]. split; [apply runs_none; auto|].
  intros k Hk. rewrite (proj2 (Nat.eqb_neq k (w_made (runs l)))) by auto. reflexivity.
Qed.
(** When none is given, no function was called, or one of them refused: then the deletion functions of
    the parents of its class, and no others, were called, parents last.  The other nodes are as they were. *)
Theorem C139_refused w0 rooted c x w : make w0 rooted c x = (w, None) ->
  (w_log w = w_log w0 \/ undone (f_works x) c (w_log w0) (w_log w)) /\ forall k, w_nodes w k = w_nodes w0 k.
Proof.
  intros E. apply make_cases in E as [(_ & L & N & _)|(_ & _ & [(_ & U & N & _)|(D & _)])]; [| |discriminate]; rewrite N; auto.
Qed.
(** A class that can be made is made when there is memory and no function refuses; one that is abstract,
    without size, without its parents or not ready never is. *)
Theorem C139_makeable w0 rooted c x : makeable rooted c -> f_memory x = true -> (f_single x = true -> f_noted x = true) ->
  (forall log f, f_works x log f = true) -> exists w n, make w0 rooted c x = (w, Some n).
Proof.
  intros M F S W. destruct (make w0 rooted c x) as [w n] eqn:E. exists w. pose proof E as E'.
  apply make_cases in E as [(_ & _ & _ & _ & H & _)|(_ & _ & [(_ & U & _)|(-> & _)])].
  - exfalso. destruct (H M) as [|(A & B)]; [congruence|]. rewrite S in B by auto. discriminate.
  - destruct U as (b & k & ps & bf & f & af & mid & _ & _ & _ & R & _). rewrite W in R. discriminate.
  - eauto.
Qed.
Theorem C139_not_makeable w0 rooted c x w n : ~ makeable rooted c -> make w0 rooted c x = (w, n) -> n = None /\ w_log w = w_log w0.
Proof. intros M E. apply make_cases in E as [(-> & L & _)|(M' & _)]; [auto|tauto]. Qed.
(** A node that goes is undone by the deletion functions of its class and of its parents, parents last,
    and lives no more. *)
Theorem C139_gone w0 k c : w_nodes w0 k = Some c ->
  w_log (let_go w0 k) = w_log w0 ++ map EDeleted (all_deleters c) /\ w_nodes (let_go w0 k) k = None /\ forall j, j <> k -> w_nodes (let_go w0 k) j = w_nodes w0 j.
Proof.
  intros E. unfold let_go. rewrite E. cbn [w_log w_nodes]. rewrite call_delete_log, Nat.eqb_refl. split; [auto|]. split; [auto|].
  intros j Hj. rewrite (proj2 (Nat.eqb_neq j k)) by auto. reflexivity.
Qed.
(** After every history in which there was memory, a module counts the classes it has among those of the
    nodes that live, besides itself, and each node has its block: what was refused left nothing. *)
Theorem C139_count l : forallb lucky l = true ->
  (forall j, w_mods (runs l) j = 1 + users (w_nodes (runs l)) j (w_made (runs l))) /\
  w_blocks (runs l) = living (w_nodes (runs l)) (w_made (runs l)).
Proof. intros H. destruct (runs_inv l H) as (_ & A & B). auto. Qed.
(** When all nodes are gone, modules and memory are as at the start. *)
Theorem C139_back l : forallb lucky l = true -> (forall k, w_nodes (runs l) k = None) ->
  (forall j, w_mods (runs l) j = 1) /\ w_blocks (runs l) = 0.
Proof.
  intros H N. destruct (C139_count l H) as (A & B). split.
  - intros j. rewrite A. enough (users (w_nodes (runs l)) j (w_made (runs l)) = 0) by lia. clear A B. induction (w_made (runs l)); cbn [users]; [auto|]. rewrite N. lia.
  - rewrite B. clear A B. induction (w_made (runs l)); cbn [living]; [auto|]. rewrite N. lia.
Qed.
(** Without memory for the node, its modules stay in use for ever: a module is never released after. *)
Theorem C139_memory_refuted c x j : makeable true c -> f_memory x = false -> 0 < uses j c ->
  (forall k, w_nodes (runs [KMake true c x]) k = None) /\ w_mods (runs [KMake true c x]) j > 1.
Proof.
  intros (_ & (k & r & Ec & Ea) & Hk & k' & Ik & Sk) F U. unfold runs. cbn [fold_left mstep]. unfold make. rewrite Ec, Ea, <- Ec.
  pose proof (lock_count true c (w_mods w_start)) as L. destruct (lock true c (w_mods w_start)) as [ok m]. destruct ok; cbn [negb].
  - destruct L as (_ & _ & L). destruct (Z.eqb_spec (node_size c) 0) as [Z0|_].
    { exfalso. rewrite node_size_0 in Z0. auto. }
    rewrite F. cbn [negb fst w_nodes w_mods]. split; [intros; reflexivity|]. rewrite L. change (w_mods w_start j) with 1. lia.
  - exfalso. destruct L as ([?|[?|(k2 & I2 & E2)]] & _); [discriminate|congruence|]. rewrite Hk in E2 by auto. discriminate.
Qed.
(** When a singleton cannot be noted, its memory is lost. *)
Theorem C139_single_refuted c works : makeable true c ->
  let x := Fate true true false works in
  (forall k, w_nodes (runs [KMake true c x]) k = None) /\ w_blocks (runs [KMake true c x]) = 1.
Proof.
  intros (_ & (k & r & Ec & Ea) & Hk & k' & Ik & Sk) x. unfold runs. cbn [fold_left mstep]. unfold make. rewrite Ec, Ea, <- Ec.
  pose proof (lock_count true c (w_mods w_start)) as L. destruct (lock true c (w_mods w_start)) as [ok m]. destruct ok; cbn [negb].
  - destruct (Z.eqb_spec (node_size c) 0) as [Z0|_].
    { exfalso. rewrite node_size_0 in Z0. auto. }
    cbn. auto.
  - exfalso. destruct L as ([?|[?|(k2 & I2 & E2)]] & _); [discriminate|congruence|]. rewrite Hk in E2 by auto. discriminate.
Qed.

(** A class with two parents in two modules; one node is made, one is refused by the class in the middle,
    and the first goes. *)
Definition ex_root : cls := Cls 0 true true 0 [CCreate 1; CDelete 2].
Definition ex_mid : cls := Cls 7 true false 16 [CDelete 3; CCreate 4; CCreate 5].
Definition ex_leaf : cls := Cls 7 true false 24 [CCreate 6; CDelete 8].
Definition ex_chain : list cls := [ex_leaf; ex_mid; ex_root].
Definition ex_good : fate := Fate true false false (fun _ _ => true).
Definition ex_bad : fate := Fate true false false (fun _ f => negb (f =? 5)).
Definition ex_calls : list mcall := [KMake true ex_chain ex_good; KMake true ex_chain ex_bad; KMake true [ex_root] ex_good; KGo 0].
Example C139_ex : makeable true ex_chain /\ ~ makeable true [ex_root] /\ forallb lucky ex_calls = true /\
  w_log (runs ex_calls) = [EMade 1; EMade 4; EMade 5; EMade 6; EMade 1; EMade 4; EFailed 5; EDeleted 2; EDeleted 8; EDeleted 3; EDeleted 2] /\
  w_mods (runs (firstn 3 ex_calls)) 7 = 3 /\ w_mods (runs ex_calls) 7 = 1 /\ uses 7 ex_chain = 2.
Proof.
  split.
  { split; [auto|]. split; [exists ex_leaf, [ex_mid; ex_root]; auto|]. split.
    - intros k [<-|[<-|[<-|[]]]]; reflexivity.
    - exists ex_mid. split; [cbn; auto|]. discriminate. }
  split.
  { intros (_ & (k & r & E & A) & _). injection E as <- <-. discriminate. }
  vm_compute. auto 10.
Qed.

Print Assumptions C139_made.
Print Assumptions C139_refused.
Print Assumptions C139_makeable.
Print Assumptions C139_not_makeable.
Print Assumptions C139_gone.
Print Assumptions C139_count.
Print Assumptions C139_back.
Print Assumptions C139_memory_refuted.
Print Assumptions C139_single_refuted.
