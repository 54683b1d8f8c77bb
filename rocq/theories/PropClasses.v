(** C108, C109: node classes. *)
From Verif Require Import Base BaseProofs Arr ArrSpec ArrProofs ArrProofs2 Ebml Tree Classes ClassesSpec ClassesProofs ClassesProofs2.

(** A class registered before its parent and grandparent, one that fails, an abstract one. *)
Definition demo : list cdef := [mkDef 3 2 9 [(3, 33)] 0 5 true; mkDef 2 1 12 [(9, 22); (4, 44)] 8 0 true; mkDef 7 1 9 [] 0 0 false; mkDef 1 0 9 [(3, 11); (4, 12)] 0 0 true].
Lemma demo_good : good_defs demo.
Proof.
  apply (good_by demo (fun x => if (x =? 2) || (x =? 3) then 12 else 9)); [|reflexivity|].
  - cbn [demo map d_id]. repeat (apply NoDup_cons; [cbn [In]; lia|]). apply NoDup_nil.
  - repeat (apply Forall_cons; [split; [discriminate|]; split; [discriminate|]; split; [vm_compute; discriminate|]; split; [reflexivity|]; split; [repeat (apply Forall_cons; [vm_compute; split; [discriminate|reflexivity]|]); apply Forall_nil|vm_compute; discriminate]|]). apply Forall_nil.
Qed.
Lemma demo_ready : ready (fun _ => true) demo 1 /\ ready (fun _ => true) demo 2 /\ ready (fun _ => true) demo 3.
Proof.
  assert (R1 : ready (fun _ => true) demo 1) by (apply (ready_intro _ demo (mkDef 1 0 9 [(3, 11); (4, 12)] 0 0 true)); [cbn; tauto|split; reflexivity|left; reflexivity]).
  assert (R2 : ready (fun _ => true) demo 2) by (apply (ready_intro _ demo (mkDef 2 1 12 [(9, 22); (4, 44)] 8 0 true)); [cbn; tauto|split; reflexivity|right; exact R1]).
  split; [exact R1|]. split; [exact R2|]. apply (ready_intro _ demo (mkDef 3 2 9 [(3, 33)] 0 5 true)); [cbn; tauto|split; reflexivity|right; exact R2].
Qed.

(** All definitions can be registered; each class is ready exactly when it can be, and then its method table
    holds its own methods, or those of its parent, at every place. *)
Theorem C108_registered mk L : good_defs L ->
  exists r, register_all mk empty_reg L = Ok r /\ (forall id, In id (r_arr r) <-> In id (map d_id L)) /\
  forall d, In d L -> exists c, deref r (d_id d) = Ok c /\ k_def c = Some d /\
    (k_state c = CLASS_INITED <-> ready mk L (d_id d)) /\ (k_state c = CLASS_FAILED <-> fails mk L d) /\
    (ready mk L (d_id d) -> vmt_size L (d_id d) (k_vsize c) /\ zlen (k_vmt c) = k_vsize c /\ k_flags c = d_flags d /\ k_pri c = d_pri d /\
       forall s, 2 <= s < k_vsize c -> exists f, aget (k_vmt c) s = Some f /\ method L (d_id d) s f).
Proof.
  intros HG. destruct (register_defs mk L HG) as (r & E & I & Q & A). exists r. split; [exact E|]. split; [exact A|]. intros d Hd. destruct (has_class mk L HG r I A d Hd) as (c & Hc & C). exists c.
  split; [exact (deref_ok _ _ _ Hc)|]. split; [exact (co_def _ _ _ _ _ _ C)|]. split; [exact (state_ready mk L HG r I Q A d c Hd Hc)|]. split; [exact (state_failed mk L HG r I Q A d c Hd Hc)|].
  intros R. pose proof (ready_inited mk L HG r I Q A _ R c Hc) as S. destruct (co_state _ _ _ _ _ _ C) as [(_ & _ & (T1 & T2 & T3 & T4))|[[? _]|[? _]]]; [|lia|lia].
  split; [exact T1|]. split; [exact (co_len _ _ _ _ _ _ C)|]. split; [exact T3|]. split; [exact T4|exact T2].
Qed.
Print Assumptions C108_registered.
Example C108_registered_ex : good_defs demo /\ exists r c, register_all (fun _ => true) empty_reg demo = Ok r /\ deref r 3 = Ok c /\ k_state c = CLASS_INITED /\ k_vmt c = [0; 0; 0; 33; 44; 0; 0; 0; 0; 22; 0; 0].
Proof. split; [exact demo_good|]. eexists _, _. split; [vm_compute; reflexivity|]. vm_compute. split; [reflexivity|]. split; reflexivity. Qed.

(** The order of the definitions does not matter. *)
Theorem C108_order mk L L' : good_defs L -> Permutation L L' ->
  exists r r', register_all mk empty_reg L = Ok r /\ register_all mk empty_reg L' = Ok r' /\ r_arr r = r_arr r' /\
  forall d, In d L -> exists c c', deref r (d_id d) = Ok c /\ deref r' (d_id d) = Ok c' /\ k_def c = k_def c' /\ k_state c = k_state c' /\
    (k_state c = CLASS_INITED -> k_vsize c = k_vsize c' /\ k_flags c = k_flags c' /\ k_pri c = k_pri c' /\ forall s, 2 <= s < k_vsize c -> aget (k_vmt c) s = aget (k_vmt c') s).
Proof.
  intros HG P. pose proof (good_perm L L' P HG) as HG'. assert (I1 : incl L L') by (intros x Hx; exact (Permutation_in x P Hx)). assert (I2 : incl L' L) by (intros x Hx; exact (Permutation_in x (Permutation_sym P) Hx)).
  destruct (register_defs mk L HG) as (r & E & I & Q & A). destruct (register_defs mk L' HG') as (r' & E' & I' & Q' & A'). exists r, r'. split; [exact E|]. split; [exact E'|].
  split.
  { apply sorted_same; [exact (in_sorted _ _ _ I)|exact (in_sorted _ _ _ I')|]. intros x. rewrite A, A'. split; intros H; [exact (Permutation_in x (Permutation_map d_id P) H)|exact (Permutation_in x (Permutation_sym (Permutation_map d_id P)) H)]. }
  intros d Hd. pose proof (I1 d Hd) as Hd'. destruct (has_class mk L HG r I A d Hd) as (c & Hc & C). destruct (has_class mk L' HG' r' I' A' d Hd') as (c' & Hc' & C'). exists c, c'.
  split; [exact (deref_ok _ _ _ Hc)|]. split; [exact (deref_ok _ _ _ Hc')|]. split; [rewrite (co_def _ _ _ _ _ _ C), (co_def _ _ _ _ _ _ C'); reflexivity|].
  pose proof (state_ready mk L HG r I Q A d c Hd Hc) as S1. pose proof (state_ready mk L' HG' r' I' Q' A' d c' Hd' Hc') as S1'. pose proof (state_failed mk L HG r I Q A d c Hd Hc) as S2. pose proof (state_failed mk L' HG' r' I' Q' A' d c' Hd' Hc') as S2'.
  assert (RR : forall id, ready mk L id <-> ready mk L' id) by (intros id; split; apply ready_incl; assumption).
  assert (B1 : k_state c = 1 <-> k_state c' = 1) by (rewrite S1, S1'; apply RR). assert (B2 : k_state c = -2 <-> k_state c' = -2) by (rewrite S2, S2', RR; reflexivity).
  assert (T : forall m H x k e, class_ok m H x (d_id e) k e -> k_state k = 1 \/ k_state k = -2 \/ k_state k = 0) by (intros m H x k e Ck; destruct (co_state _ _ _ _ _ _ Ck) as [[? _]|[[? _]|[? _]]]; [left|right; left|right; right]; assumption).
  split; [pose proof (T _ _ _ _ _ C); pose proof (T _ _ _ _ _ C'); lia|]. unfold CLASS_INITED. intros S.
  destruct (co_state _ _ _ _ _ _ C) as [(_ & _ & (T1 & T2 & T3 & T4))|[[? _]|[? _]]]; [|lia|lia]. pose proof (proj1 B1 S) as S'. destruct (co_state _ _ _ _ _ _ C') as [(_ & _ & (T1' & T2' & T3' & T4'))|[[? _]|[? _]]]; [|lia|lia].
  assert (EV : k_vsize c = k_vsize c') by (exact (size_unique L HG _ _ T1 _ (size_incl L' L I2 _ _ T1'))).
  split; [exact EV|]. split; [congruence|]. split; [congruence|]. intros s Hs. destruct (T2 s Hs) as (f & -> & Mf). destruct (T2' s) as (f' & -> & Mf'); [rewrite <- EV; exact Hs|]. f_equal. exact (method_unique L HG _ _ _ Mf _ (method_incl L' L I2 _ _ _ Mf')).
Qed.
Print Assumptions C108_order.
Example C108_order_ex : good_defs demo /\ Permutation demo (rev demo) /\ rev demo <> demo.
Proof. split; [exact demo_good|]. split; [apply Permutation_rev|discriminate]. Qed.

(** Looking up finds the classes that were registered and did not fail, whatever was looked up before. *)
Theorem C108_lookup mk L r ids : good_defs L -> register_all mk empty_reg L = Ok r ->
  exists os, lookups r ids = Ok os /\
    Forall2 (fun id o => (o = Some id /\ exists d, In d L /\ d_id d = id /\ ~ fails mk L d) \/ (o = None /\ ~ exists d, In d L /\ d_id d = id /\ ~ fails mk L d)) ids os.
Proof.
  intros HG E. destruct (register_defs mk L HG) as (r' & E' & I & Q & A). rewrite E in E'. injection E' as <-. apply (lookups_ok mk L HG ids r I Q A).
Qed.
Print Assumptions C108_lookup.
Example C108_lookup_ex : good_defs demo /\ exists r, register_all (fun _ => true) empty_reg demo = Ok r /\ lookups r [3; 3; 7; 1; 9; 3] = Ok [Some 3; Some 3; None; Some 1; None; Some 3].
Proof. split; [exact demo_good|]. eexists. split; [vm_compute; reflexivity|]. vm_compute. reflexivity. Qed.

(** A ready class is of a kind exactly when its definition says that it comes from it. *)
Theorem C108_kind mk L r id x : good_defs L -> register_all mk empty_reg L = Ok r -> ready mk L id ->
  exists k b, (b = true <-> part_of L id x) /\ forall fuel, (k <= fuel)%nat -> node_is_class fuel r id x = Ok b.
Proof.
  intros HG E R. destruct (register_defs mk L HG) as (r' & E' & I & Q & A). rewrite E in E'. injection E' as <-. destruct (part_ok mk L HG r I Q A id R x) as (k & b & B & K). exists k, b. split; [exact B|]. intros fuel F.
  unfold node_is_class. destruct (find_class_ok mk L HG r id I) as (o & r2 & -> & I2 & A2 & M2 & H). cbn [bind fst snd]. destruct H as [[-> _]|[-> NF]].
  - rewrite <- (K fuel F). clear -M2. generalize (Some id). induction fuel as [|fuel IH]; intros [p|]; cbn [is_part_of]; try reflexivity. destruct (p =? x); [reflexivity|]. unfold deref. rewrite M2. destruct (r_mem r p); cbn [bind]; [apply IH|reflexivity].
  - elim NF. destruct R as [d Hd W P]. destruct (has_class mk L HG r I A d Hd) as (c & Hc & _). split; [apply A; apply in_map; exact Hd|]. exists c. split; [exact Hc|]. rewrite (ready_inited mk L HG r I Q A (d_id d) (ready_intro mk L d Hd W P) c Hc). lia.
Qed.
Print Assumptions C108_kind.
Example C108_kind_ex : good_defs demo /\ ready (fun _ => true) demo 3 /\ exists r, register_all (fun _ => true) empty_reg demo = Ok r /\ node_is_class 5 r 3 1 = Ok true /\ node_is_class 5 r 1 3 = Ok false.
Proof. split; [exact demo_good|]. split; [exact (proj2 (proj2 demo_ready))|]. eexists. split; [vm_compute; reflexivity|]. vm_compute. split; reflexivity. Qed.

(** Registering an ID a second time changes nothing. *)
Theorem C108_again mk L r d : good_defs L -> register_all mk empty_reg L = Ok r -> In (d_id d) (map d_id L) ->
  exists r', register mk r d = Ok r' /\ r_arr r' = r_arr r /\ r_mem r' = r_mem r.
Proof.
  intros HG E Hd. destruct (register_defs mk L HG) as (r' & E' & I & Q & A). rewrite E in E'. injection E' as <-. destruct (register_known mk L HG r d I) as (r2 & E2 & _ & A2 & M2); [apply A; exact Hd|]. exists r2. split; [exact E2|]. split; assumption.
Qed.
Print Assumptions C108_again.
Example C108_again_ex : good_defs demo /\ In (d_id (mkDef 2 3 9 [] 0 0 false)) (map d_id demo).
Proof. split; [exact demo_good|]. vm_compute. tauto. Qed.

(** Two classes that name each other as parent: asking for their kind never ends. *)
Theorem C108_cycle_refuted : exists L, good_defs L /\ exists r, register_all (fun _ => true) empty_reg L = Ok r /\ forall fuel, node_is_class fuel r 5 9 = Fuel.
Proof.
  set (a := mkDef 5 6 9 [] 0 0 true). set (b := mkDef 6 5 9 [] 0 0 true). exists [a; b].
  assert (NS : forall id n, vmt_size [a; b] id n -> False).
  { induction 1 as [d [<-|[<-|[]]] N|d [<-|[<-|[]]] E P|d n Hd E S IH]; try exact IH; try (apply N; reflexivity); discriminate P. }
  split.
  { split; [|split].
    - apply NoDup_cons; [intros [H|[]]; discriminate H|]. apply NoDup_cons; [intros []|apply NoDup_nil].
    - apply Forall_cons; [|apply Forall_cons; [|apply Forall_nil]]; (split; [discriminate|split; [discriminate|vm_compute; discriminate]]).
    - intros d n _ S. destruct (NS _ _ S). }
  eexists. split; [vm_compute; reflexivity|]. intros fuel. unfold node_is_class. cbn [find_class]. 
  match goal with |- context [find_class ?r 5] => let v := eval vm_compute in (find_class r 5) in change (find_class r 5) with v end. cbn [bind fst snd].
  match goal with |- is_part_of _ ?r _ _ = _ => set (R := r) end.
  assert (D5 : exists c, deref R 5 = Ok c /\ k_parent c = Some 6) by (eexists; vm_compute; split; reflexivity). assert (D6 : exists c, deref R 6 = Ok c /\ k_parent c = Some 5) by (eexists; vm_compute; split; reflexivity).
  clearbody R. destruct D5 as (c5 & D5 & P5), D6 as (c6 & D6 & P6).
  assert (GO : forall n, is_part_of n R (Some 5) 9 = Fuel /\ is_part_of n R (Some 6) 9 = Fuel); [|exact (proj1 (GO fuel))].
  induction n as [|n [IH1 IH2]]; [split; reflexivity|]. split; cbn [is_part_of].
  - change (5 =? 9) with false. cbv iota. rewrite D5. cbn [bind]. rewrite P5. exact IH2.
  - change (6 =? 9) with false. cbv iota. rewrite D6. cbn [bind]. rewrite P6. exact IH1.
Qed.
Print Assumptions C108_cycle_refuted.

(** Enumeration lists the ready, non-abstract classes of a kind that the filter accepts, each once and the
    best first; asked for one only, it gives the first. *)
Theorem C109_enumeration mk L r rate x : good_defs L -> register_all mk empty_reg L = Ok r -> (forall d, In d L -> ready mk L (d_id d) \/ fails mk L d) ->
  exists k l, (forall fuel, (k <= fuel)%nat -> enum_list fuel rate x r = Ok l /\ enum_best fuel rate x r = Ok (hd 0 l)) /\
    NoDup l /\ (forall id, In id l <-> listed mk L rate x id) /\
    StronglySorted (fun a b => forall da db, In da L -> In db L -> d_id da = a -> d_id db = b -> better (mkRated a (d_pri da) (rate a)) (mkRated b (d_pri db) (rate b))) l.
Proof.
  intros HG E ALL. destruct (register_defs mk L HG) as (r' & E' & I & Q & A). rewrite E in E'. injection E' as <-.
  destruct (candidates_ok mk L HG rate x r I Q A ALL (r_arr r) (incl_refl _) (in_sorted _ _ _ I)) as (k & c & K & SC & IC).
  destruct (enum_ok c SC) as (s & Es & P & SB & B).
  { apply Forall_forall. intros t Ht. apply IC in Ht. destruct Ht as (_ & d & _ & _ & _ & _ & _ & Hr & _ & Et). lia. }
  exists k, (map t_id s). assert (IS : forall t, In t s <-> In t c) by (intros t; split; intros H; [exact (Permutation_in t (Permutation_sym P) H)|exact (Permutation_in t P H)]).
  split; [|split; [|split]].
  - intros fuel F. unfold enum_list, enum_best. rewrite (K fuel F). cbn [bind]. rewrite Es. cbn [opt_res bind]. split; [reflexivity|]. rewrite <- B. destruct (fold_left best_step c (0, 0, 0)) as [[? ?] ?]. reflexivity.
  - eapply Permutation_NoDup; [exact (Permutation_map t_id P)|]. clear -SC. induction SC as [|y l SC IH F]; cbn [map]; constructor; [|exact IH]. rewrite Forall_forall in F. intros H. apply in_map_iff in H. destruct H as (z & Ez & Hz). specialize (F z Hz). cbv beta in F. lia.
  - intros id. unfold listed. split.
    + intros H. apply in_map_iff in H. destruct H as (t & <- & Ht). apply IS, IC in Ht. destruct Ht as (_ & d & H1 & H2 & H3 & H4 & H5 & H6 & _). exists d. repeat (split; [assumption|]). assumption.
    + intros (d & H1 & H2 & H3 & H4 & H5 & H6). apply in_map_iff. exists (mkRated id (d_pri d) (rate id)). split; [reflexivity|]. apply IS, IC. cbn [t_id t_pri t_rate]. split; [apply A; rewrite <- H2; apply in_map; exact H1|]. exists d. repeat (split; [assumption || reflexivity|]). reflexivity.
  - assert (TE : forall t d, In t s -> In d L -> d_id d = t_id t -> mkRated (t_id t) (d_pri d) (rate (t_id t)) = t).
    { intros t d Ht Hd Ed. apply IS, IC in Ht. destruct Ht as (_ & e & H1 & H2 & _ & _ & _ & _ & H3 & H4). rewrite <- H2 in Ed. rewrite (def_unique L HG d e Hd H1 Ed). destruct t as [ti tp tr]. cbn [t_id t_pri t_rate] in *. congruence. }
    clear -SB TE. induction SB as [|t s SB IH F]; cbn [map]; [constructor|]. constructor; [apply IH; intros t' d Ht; apply TE; right; exact Ht|]. rewrite Forall_forall in *. intros b Hb. apply in_map_iff in Hb. destruct Hb as (u & <- & Hu). intros da db Ha Hb Ea Eb.
    rewrite (TE t da (or_introl eq_refl) Ha Ea), (TE u db (or_intror Hu) Hb Eb). exact (F u Hu).
Qed.
Print Assumptions C109_enumeration.
Example C109_enumeration_ex : good_defs demo /\ (forall d, In d demo -> ready (fun _ => true) demo (d_id d) \/ fails (fun _ => true) demo d) /\
  exists r, register_all (fun _ => true) empty_reg demo = Ok r /\ enum_list 5 (fun _ => 1) 1 r = Ok [3; 1] /\ enum_best 5 (fun x => 10 - x) 1 r = Ok 1.
Proof.
  destruct demo_ready as (R1 & R2 & R3). split; [exact demo_good|]. split.
  - intros d [<-|[<-|[<-|[<-|[]]]]]; [left; exact R3|left; exact R2| |left; exact R1]. right. split; [intros [H _]; discriminate H|right; exact R1].
  - eexists. split; [vm_compute; reflexivity|]. vm_compute. split; reflexivity.
Qed.

(** An abstract class whose parent is not there is listed all the same. *)
Theorem C109_waiting_refuted : exists L r d, good_defs L /\ register_all (fun _ => true) empty_reg L = Ok r /\ In d L /\ Z.land (d_flags d) CFLAG_ABSTRACT <> 0 /\ ~ ready (fun _ => true) L (d_id d) /\
  enum_list 2 (fun _ => 1) (d_id d) r = Ok [d_id d].
Proof.
  exists [mkDef 5 6 9 [] 8 0 true]. eexists _, _. split.
  - apply (good_by _ (fun _ => 9)); [apply NoDup_cons; [intros []|apply NoDup_nil]|reflexivity|]. apply Forall_cons; [|apply Forall_nil].
    split; [discriminate|]. split; [discriminate|]. split; [vm_compute; discriminate|]. split; [reflexivity|]. split; [apply Forall_nil|vm_compute; discriminate].
  - split; [vm_compute; reflexivity|]. split; [left; reflexivity|]. split; [vm_compute; discriminate|]. split; [|vm_compute; reflexivity].
    intros R. inversion R as [d Hd _ P E]. destruct Hd as [Hd|[]]. rewrite <- Hd in P. destruct P as [P|P]; [discriminate P|]. inversion P as [e He _ _ E2]. destruct He as [He|[]]. rewrite <- He in E2. cbn [d_id d_parent] in E2. lia.
Qed.
Print Assumptions C109_waiting_refuted.
