(** Properties C124 and C125: the life of nodes. *)
From Verif Require Import Base Tree Life LifeSpec LifeProofs LifeProofs2 LifeProofs3.

(** C124: in every run of a program that keeps to the rules, no operation reads or frees a node that has been freed, ... *)
Theorem C124_no_use_after_free : forall s H o, run s H -> pre H s o -> exists s', exec s o = Ok s'.
Proof. intros s H o R P. destruct (step_ok s H o (run_good s H R) P) as (s' & E & _). eauto. Qed.

(** ... whatever can be followed leads to a node that is there, ... *)
Theorem C124_no_dangling : forall s H, run s H -> no_dangling s H.
Proof.
  intros s H R. destruct (run_good s H R) as (_ & I). constructor.
  - exact (iv0 _ _ _ _ _ I).
  - exact (ivK _ _ _ _ _ I).
  - exact (ivR _ _ _ _ _ I).
  - exact (ivP _ _ _ _ _ I).
  - exact (ivC _ _ _ _ _ I).
  - exact (ivN _ _ _ _ _ I).
Qed.

(** ... and what an operation frees takes nothing from the nodes that stay. *)
Theorem C124_others_kept : forall s H o s', run s H -> pre H s o -> exec s o = Ok s' -> kept_by o (s_heap s) (s_heap s').
Proof.
  intros s H o s' R P E. destruct (step_ok s H o (run_good s H R) P) as (s1 & E1 & _ & K & _). rewrite E in E1. injection E1 as <-. exact K.
Qed.

(** A cluster (1) with a block (2) and a cue point (3) that refers to the block. *)
Definition ex_ops : list op := [New 0; New 2; New 1; SetParent 2 1 0; SetRef 3 0 2].
Definition ex_after (l : list op) : st := match exec_all s0 l with Ok s => s | _ => s0 end.
Ltac ev := vm_compute; try reflexivity; try discriminate.
Example ex_ops_rules : by_rules (fun _ => 0) s0 ex_ops.
Proof.
  cbn [ex_ops by_rules]. split; [exact Logic.I | ]. split; [exact Logic.I | ]. split; [exact Logic.I | ].
  split.
  - split; [ev | ]. split; [intros _; ev | ]. split; [right; split; ev | ]. split; [lia | left; reflexivity].
  - split; [ | exact Logic.I]. split; [ | right; ev]. eexists. split; [reflexivity | ]. simpl. lia.
Qed.
Lemma ex_run : run (ex_after ex_ops) (after_all (fun _ => 0) s0 ex_ops).
Proof.
  destruct (run_all ex_ops s0 (fun _ => 0) run0 ex_ops_rules) as (s' & E & R). unfold ex_after. rewrite E. exact R.
Qed.
(** The program has handles of the cluster and the cue point; the block is counted for the cluster and for the cue point; it stays
    when the cluster goes, and goes with the cue point. *)
Example C124_ex :
  let s := ex_after ex_ops in let H := after_all (fun _ => 0) s0 ex_ops in
  run s H /\ (H 1, H 2, H 3) = (1, 0, 1) /\ map (rc_of (s_heap s)) [1; 2; 3] = [1; 2; 1] /\
  pre H s (Release 1) /\
  map (rc_of (s_heap (ex_after (ex_ops ++ [Release 1])))) [1; 2; 3] = [0; 1; 1] /\
  map (fun a => match s_heap (ex_after (ex_ops ++ [Release 1; Release 3])) a with Some _ => true | None => false end) [1; 2; 3] = [false; false; false].
Proof. split; [apply ex_run | ]. split; [ev | ]. split; [ev | ]. split; [ev | ]. split; ev. Qed.
(** A block nothing refers to, deleted where it is: its cluster has it no more. *)
Example C124_delete_ex :
  let l := [New 0; New 2; SetParent 2 1 0] in
  run (ex_after l) (after_all (fun _ => 0) s0 l) /\ pre (after_all (fun _ => 0) s0 l) (ex_after l) (DeleteChild 2) /\
  kids_of (s_heap (ex_after l)) 1 = [2] /\ kids_of (s_heap (ex_after (l ++ [DeleteChild 2]))) 1 = [] /\
  s_heap (ex_after (l ++ [DeleteChild 2])) 2 = None.
Proof.
  intros l. assert (B : by_rules (fun _ => 0) s0 l).
  { cbn [l by_rules]. split; [exact Logic.I | ]. split; [exact Logic.I | ]. split; [ | exact Logic.I].
    split; [ev | ]. split; [intros _; ev | ]. split; [right; split; ev | ]. split; [lia | left; reflexivity]. }
  destruct (run_all l s0 (fun _ => 0) run0 B) as (s' & E & R).
  assert (ES : ex_after l = s') by (unfold ex_after; rewrite E; reflexivity). rewrite <- ES in R. clear ES E s'.
  split; [exact R | ]. split; [ | split; [ev | split; ev]].
  split; [ev | ]. split; [apply an_handle; ev | ]. eexists. split; [reflexivity | reflexivity].
Qed.

(** The rule for a child deleted where it is asks that nothing else refers to it.  Without that rule the claim is false: deleting
    the block of a cue point leaves it in its cluster without a count; when the cluster goes the block is freed, the cue point
    refers to memory that is free, and deleting the cue point reads it. *)
Theorem C124_delete_referred_refuted :
  exists s H s1 s2, run s H /\ (par_of (s_heap s) 2 = 1 /\ anchored H (s_heap s) 1 /\ rc_of (s_heap s) 2 = 2) /\
    exec s (DeleteChild 2) = Ok s1 /\ In 2 (kids_of (s_heap s1) 1) /\ rc_of (s_heap s1) 2 = 1 /\
    exec s1 (Release 1) = Ok s2 /\ In 2 (refs_of (s_heap s2) 3) /\ s_heap s2 2 = None /\ exec s2 (Release 3) = Bad.
Proof.
  exists (ex_after ex_ops), (after_all (fun _ => 0) s0 ex_ops), (ex_after (ex_ops ++ [DeleteChild 2])), (ex_after (ex_ops ++ [DeleteChild 2; Release 1])).
  split; [apply ex_run | ]. split; [split; [ev | split; [apply an_handle; ev | ev]] | ].
  split; [reflexivity | ]. split; [vm_compute; tauto | ]. split; [ev | ]. split; [reflexivity | ]. split; [vm_compute; tauto | ].
  split; ev.
Qed.

(** C125: the count of a node is the number of its holders: the handles of the program, its parent, the references to it; ... *)
Theorem C125_counted : forall s H a, run s H -> live (s_heap s) a -> rc_of (s_heap s) a = holders s H a /\ 1 <= holders s H a.
Proof.
  intros s H a R L. destruct (run_good s H R) as (_ & I). pose proof (ivrc _ _ _ _ _ I a L) as C.
  pose proof (ivL _ _ _ _ _ I a L (fun x => x)) as L1. unfold holders. unfold held in C. simpl in C. lia.
Qed.

(** ... released by the last of them it is freed, and before that only the count changes; ... *)
Theorem C125_last_frees : forall s H a s', run s H -> 0 < H a -> holders s H a = 1 -> exec s (Release a) = Ok s' -> s_heap s' a = None.
Proof. intros s H a s' R. apply released, run_good, R. Qed.
Theorem C125_others_hold : forall s H a s' x, run s H -> 0 < H a -> 1 < holders s H a -> s_heap s a = Some x -> exec s (Release a) = Ok s' ->
  forall b, s_heap s' b = if b =? a then Some (Obj (o_rc x - 1) (o_par x) (o_kids x) (o_refs x)) else s_heap s b.
Proof.
  intros s H a s' x R P HO Ex E b. assert (La : live (s_heap s) a) by (unfold live; congruence).
  destruct (C125_counted s H a R La) as (C & _). unfold rc_of in C. rewrite Ex in C.
  cbn [exec release] in E. unfold at_ in E. rewrite Ex in E. cbn [bind] in E.
  destruct (Z.eqb_spec (o_rc x - 1) 0) as [Er | Er]; [lia | ]. cbn [bind] in E. injection E as <-. reflexivity.
Qed.

(** ... and when the program has given back its handles, and the links make no cycle, nothing is left. *)
Theorem C125_nothing_left : forall s H, run s H -> (forall a, H a = 0) -> acyclic (s_heap s) -> forall a, s_heap s a = None.
Proof. intros s H R. apply all_gone, run_good, R. Qed.
Example C125_ex :
  let l := ex_ops ++ [Release 1; Release 3] in let s := ex_after ex_ops in let H := after_all (fun _ => 0) s0 ex_ops in
  run (ex_after l) (after_all (fun _ => 0) s0 l) /\ (forall a, after_all (fun _ => 0) s0 l a = 0) /\ acyclic (s_heap (ex_after l)) /\
  acyclic (s_heap s) /\ holders s H 2 = 2 /\ holders s H 3 = 1 /\ pre H s (Release 3).
Proof.
  intros l s H.
  assert (B : by_rules (fun _ => 0) s0 l).
  { pose proof ex_ops_rules as B. unfold ex_ops in B. cbn [by_rules] in B. destruct B as (B1 & B2 & B3 & B4 & B5 & _).
    unfold l, ex_ops. cbn [app by_rules]. do 5 (split; [assumption | ]). split; [ev | ]. split; [ev | exact Logic.I]. }
  destruct (run_all l s0 (fun _ => 0) run0 B) as (s' & E & R).
  assert (ES : ex_after l = s') by (unfold ex_after; rewrite E; reflexivity). rewrite <- ES in R. clear ES E s'.
  split; [exact R | ]. split.
  { intros a. cbn [l ex_ops app after_all exec]. unfold after_all. cbn. unfold plus. repeat match goal with |- context [?x =? ?y] => destruct (Z.eqb_spec x y); try (subst; cbn); try lia end. }
  split; [exists (fun a => O); intros a b Hab; exfalso | ].
  { assert (La : live (s_heap (ex_after l)) a) by (destruct Hab as [Q | (Q & _)]; [exact (live_kids _ _ _ Q) | exact (live_refs _ _ _ Q)]).
    apply (ivd _ _ _ _ _ (proj2 (run_good _ _ R))) in La. vm_compute in La. destruct La as [<- | [<- | [<- | []]]]; vm_compute in Hab; tauto. }
  split; [exists (fun a => if a =? 2 then 0%nat else 1%nat); intros a b Hab | ].
  { assert (La : live (s_heap s) a) by (destruct Hab as [Q | (Q & _)]; [exact (live_kids _ _ _ Q) | exact (live_refs _ _ _ Q)]).
    apply (ivd _ _ _ _ _ (proj2 (run_good _ _ ex_run))) in La. vm_compute in La.
    destruct La as [<- | [<- | [<- | []]]]; vm_compute in Hab;
      repeat match type of Hab with _ \/ _ => destruct Hab as [Hab | Hab] | _ /\ _ => destruct Hab as (Hab & ?) end;
      try contradiction; subst b; simpl; try lia; congruence. }
  split; [ev | ]. split; ev.
Qed.

(** Without the last condition the claim is false: two nodes that refer to each other stay for ever. *)
Theorem C125_cycle_refuted : exists s H, run s H /\ (forall a, H a = 0) /\ live (s_heap s) 1 /\ live (s_heap s) 2.
Proof.
  set (l := [New 1; New 1; SetRef 1 0 2; SetRef 2 0 1; Release 1; Release 2]).
  assert (B : by_rules (fun _ => 0) s0 l).
  { cbn [l by_rules]. split; [exact Logic.I | ]. split; [exact Logic.I | ].
    split; [split; [eexists; split; [reflexivity | simpl; lia] | right; ev] | ].
    split; [split; [eexists; split; [reflexivity | simpl; lia] | right; ev] | ].
    split; [ev | ]. split; [ev | exact Logic.I]. }
  destruct (run_all l s0 (fun _ => 0) run0 B) as (s' & E & R).
  assert (ES : ex_after l = s') by (unfold ex_after; rewrite E; reflexivity). rewrite <- ES in R. clear ES E s'.
  exists (ex_after l), (after_all (fun _ => 0) s0 l). split; [exact R | ]. split.
  - intros a. unfold l. cbn. unfold plus. repeat match goal with |- context [?x =? ?y] => destruct (Z.eqb_spec x y); try (subst; cbn); try lia end.
  - split; ev.
Qed.

Print Assumptions C124_no_use_after_free.
Print Assumptions C124_no_dangling.
Print Assumptions C124_others_kept.
Print Assumptions C124_delete_referred_refuted.
Print Assumptions C125_counted.
Print Assumptions C125_last_frees.
Print Assumptions C125_others_hold.
Print Assumptions C125_nothing_left.
Print Assumptions C125_cycle_refuted.
