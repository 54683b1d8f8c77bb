(** Property C126: blocks that cannot be read. *)
From Verif Require Import Base Tree Life LifeSpec LifeProofs LifeProofs2 LifeProofs3 ReadCl ReadClSpec ReadClProofs PropLife.

Lemma find_first (kd : Z -> kind) l : match find (fun c => is_block (kd c)) l with
  | Some g => exists pr r, l = pr ++ g :: r /\ Forall (fun c => kd c <> KBlock) pr /\ kd g = KBlock
  | None => Forall (fun c => kd c <> KBlock) l end.
Proof.
  induction l as [ | c l IH]; simpl; [constructor | ]. destruct (kd c) eqn:E; simpl.
  1, 3, 4: destruct (find _ l) as [g | ];
    [destruct IH as (pr & r & -> & F & G); exists (c :: pr), r; split; [reflexivity | split; [constructor; [congruence | exact F] | exact G]]
    | constructor; [congruence | exact IH]].
  exists [], l. auto.
Qed.
Lemma first_unique (kd : Z -> kind) pr g l pr' g' l' : pr ++ g :: l = pr' ++ g' :: l' -> Forall (fun c => kd c <> KBlock) pr ->
  Forall (fun c => kd c <> KBlock) pr' -> kd g = KBlock -> kd g' = KBlock -> g = g'.
Proof.
  revert pr'. induction pr as [ | c pr IH]; intros [ | c' pr'] E F F' G G'; simpl in E; injection E as E1 E2.
  - exact E1.
  - subst. pose proof (Forall_inv F') as Qq. cbv beta in Qq. contradiction.
  - subst. pose proof (Forall_inv F) as Qq. cbv beta in Qq. contradiction.
  - subst. exact (IH pr' E2 (Forall_inv_tail F) (Forall_inv_tail F') G G').
Qed.
Lemma unread_lost kd rd h b : unread kd rd h b = true <-> lost kd rd h b.
Proof.
  unfold unread. split.
  - intros E. destruct (kd b) eqn:K; try discriminate.
    + destruct (h b) as [x | ] eqn:Eb; [ | discriminate]. pose proof (find_first kd (o_kids x)) as F.
      destruct (find _ (o_kids x)) as [g | ]; [ | discriminate]. destruct F as (pr & r & E2 & F & G).
      apply (lost_group kd rd h b pr g r); auto; [unfold kids_of; rewrite Eb; exact E2 | ]. destruct (rd g); [discriminate | reflexivity].
    + apply lost_simple; [exact K | ]. destruct (rd b); [discriminate | reflexivity].
  - intros [K R | pr g l K E F G R]; rewrite K; [rewrite R; reflexivity | ].
    unfold kids_of in E. destruct (h b) as [x | ]; [ | destruct pr; discriminate]. pose proof (find_first kd (o_kids x)) as Q.
    destruct (find _ (o_kids x)) as [g' | ].
    + destruct Q as (pr' & r' & E' & F' & G'). rewrite E in E'. rewrite <- (first_unique kd _ _ _ _ _ _ E' F F' G G'), R. reflexivity.
    + rewrite E in Q. apply Forall_app in Q. destruct Q as (_ & Q). pose proof (Forall_inv Q) as Qq. cbv beta in Qq. contradiction.
Qed.

(** C126: of a cluster that the program holds, whose lost elements nothing but the cluster holds, exactly the lost elements are
    taken out and freed, the others stay in their order, it is told whether there were any, and the run goes on by the rules. *)
Theorem C126_lost_dropped : forall kd readable s H cl, run s H -> 0 < H cl -> kd cl = KOther ->
  (forall b, In b (kids_of (s_heap s) cl) -> lost kd readable (s_heap s) b -> rc_of (s_heap s) b = 1) ->
  exists s' changed keep, read_cluster kd readable s cl = Ok (s', changed) /\ run s' H /\
    kids_of (s_heap s') cl = filter keep (kids_of (s_heap s) cl) /\
    (forall b, keep b = false <-> lost kd readable (s_heap s) b) /\
    (forall b, In b (kids_of (s_heap s) cl) -> lost kd readable (s_heap s) b -> s_heap s' b = None) /\
    (changed = true <-> exists b, In b (kids_of (s_heap s) cl) /\ lost kd readable (s_heap s) b).
Proof.
  intros kd rd s H cl R Hcl KO Rc. destruct (run_good _ _ R) as (_ & I).
  pose proof (ivK _ _ _ _ _ I cl Hcl) as L. unfold read_cluster, at_. destruct (s_heap s cl) as [x | ] eqn:E; [ | congruence]. cbn [bind].
  assert (K : kids_of (s_heap s) cl = o_kids x) by (unfold kids_of; rewrite E; reflexivity). rewrite K in *.
  destruct (read_loop_ok kd rd H cl KO (o_kids x) s [] (S (length (o_kids x))) false R Hcl K) as (s' & A1 & A2 & A3 & A4 & A5).
  - intros c Hc Uc. apply Rc; [exact Hc | apply unread_lost; exact Uc].
  - lia.
  - exists s', (existsb (unread kd rd (s_heap s)) (o_kids x)), (fun c => negb (unread kd rd (s_heap s) c)).
    split; [exact A1 | ]. split; [exact A2 | ]. split; [exact A3 | ]. split; [ | split].
    + intros b. rewrite <- unread_lost. destruct (unread kd rd (s_heap s) b); simpl; split; congruence.
    + intros b Hb Lb. apply A5; [exact Hb | apply unread_lost; exact Lb].
    + rewrite existsb_exists. split; intros (b & Hb & Q); exists b; (split; [exact Hb | apply unread_lost; exact Q]).
Qed.

(** A cluster (1) with a simple block (2), a group (3) of a block (4), and another simple block (5); 2 and 4 cannot be read, and a
    cue point (6) refers to 4. *)
Definition exr_ops : list op := [New 0; New 2; New 0; New 2; New 2; New 1; SetParent 2 1 0; SetParent 3 1 0; SetParent 4 3 0; SetParent 5 1 0; SetRef 6 0 4].
Definition exr_kd (a : Z) : kind := if a =? 3 then KGroup else if a =? 4 then KBlock else if (a =? 2) || (a =? 5) then KSimple else KOther.
Definition exr_rd (a : Z) : bool := negb ((a =? 2) || (a =? 4)).
Example exr_rules : by_rules (fun _ => 0) s0 exr_ops.
Proof.
  cbn [exr_ops by_rules]. do 6 (split; [exact Logic.I | ]).
  do 4 (split; [split; [ev | ]; split; [intros _; ev | ]; split; [right; split; ev | ]; split; [lia | left; reflexivity] | ]).
  split; [ | exact Logic.I]. split; [ | right; ev]. eexists. split; [reflexivity | ]. simpl. lia.
Qed.
Lemma exr_run : run (ex_after exr_ops) (after_all (fun _ => 0) s0 exr_ops).
Proof. destruct (run_all exr_ops s0 (fun _ => 0) run0 exr_rules) as (s' & E & R). unfold ex_after. rewrite E. exact R. Qed.
Example C126_ex :
  let s := ex_after exr_ops in let H := after_all (fun _ => 0) s0 exr_ops in
  run s H /\ 0 < H 1 /\ exr_kd 1 = KOther /\
  (forall b, In b (kids_of (s_heap s) 1) -> lost exr_kd exr_rd (s_heap s) b -> rc_of (s_heap s) b = 1) /\
  kids_of (s_heap s) 1 = [2; 3; 5] /\
  match read_cluster exr_kd exr_rd s 1 with
  | Ok (s', changed) => kids_of (s_heap s') 1 = [5] /\ changed = true /\ s_heap s' 2 = None /\ s_heap s' 3 = None /\ rc_of (s_heap s') 4 = 1
  | _ => False
  end.
Proof.
  intros s H. split; [apply exr_run | ]. split; [ev | ]. split; [reflexivity | ]. split; [ | split; [ev | ]].
  - intros b Hb _. vm_compute in Hb. destruct Hb as [<- | [<- | [<- | []]]]; ev.
  - vm_compute. auto 10.
Qed.

(** Without the condition on the lost elements the claim is false: a simple block that a cue point refers to and that cannot be
    read is said to be dropped and stays; read again (mkclean reads each cluster several times, 364, 395, 661) it is freed while
    the cue point refers to it. *)
Theorem C126_cue_refuted :
  exists kd readable s H s1 s2, run s H /\ 0 < H 1 /\ kd 1 = KOther /\ kd 2 = KSimple /\ readable 2 = false /\
    kids_of (s_heap s) 1 = [2] /\ refs_of (s_heap s) 3 = [2] /\
    read_cluster kd readable s 1 = Ok (s1, true) /\ kids_of (s_heap s1) 1 = [2] /\
    read_cluster kd readable s1 1 = Ok (s2, true) /\ refs_of (s_heap s2) 3 = [2] /\ s_heap s2 2 = None.
Proof.
  set (kd := fun a => if a =? 2 then KSimple else KOther). set (rd := fun a : Z => false).
  set (s1 := match read_cluster kd rd (ex_after ex_ops) 1 with Ok (s, _) => s | _ => s0 end).
  exists kd, rd, (ex_after ex_ops), (after_all (fun _ => 0) s0 ex_ops), s1,
    (match read_cluster kd rd s1 1 with Ok (s, _) => s | _ => s0 end).
  split; [apply ex_run | ]. split; [ev | ]. do 3 (split; [reflexivity | ]). split; [ev | ]. split; [ev | ].
  split; [reflexivity | ]. split; [ev | ]. split; [reflexivity | ]. split; ev.
Qed.

Print Assumptions C126_lost_dropped.
Print Assumptions C126_cue_refuted.
