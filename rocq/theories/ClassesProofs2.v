(** Proofs about node classes: the order of registration, lookups, enumeration. *)
From Verif Require Import Base BaseProofs Arr ArrSpec ArrProofs ArrProofs2 Ebml Tree Classes ClassesSpec ClassesProofs.

(** ** The same definitions in another order *)
Lemma ready_incl mk L L' : incl L L' -> forall id, ready mk L id -> ready mk L' id.
Proof. intros H. fix IH 2. intros id R. destruct R as [d Hd W P]. apply ready_intro; [exact (H d Hd)|exact W|]. destruct P as [P|P]; [left; exact P|right; exact (IH _ P)]. Qed.
Lemma size_incl L L' : incl L L' -> forall id n, vmt_size L id n -> vmt_size L' id n.
Proof. intros H id n S. induction S; [apply size_given|apply size_root|apply size_parent]; auto. Qed.
Lemma method_incl L L' : incl L L' -> forall id s f, method L id s f -> method L' id s f.
Proof. intros H id s f S. induction S; [eapply method_own|apply method_parent|apply method_null]; eauto. Qed.
Lemma good_perm L L' : Permutation L L' -> good_defs L -> good_defs L'.
Proof.
  intros P (A & B & C). assert (I1 : incl L L') by (intros x Hx; exact (Permutation_in x P Hx)). assert (I2 : incl L' L) by (intros x Hx; exact (Permutation_in x (Permutation_sym P) Hx)).
  split; [exact (Permutation_NoDup (Permutation_map d_id P) A)|]. split; [exact (Permutation_Forall P B)|]. intros d n Hd Hn. destruct (C d n (I2 d Hd) (size_incl L' L I2 _ _ Hn)) as [C1 C2]. split; [exact C1|]. intros m Hm. apply C2. exact (size_incl L' L I2 _ _ Hm).
Qed.
Lemma last_unique (l1 l2 l1' l2' : list (Z * Z)) s f g : l1 ++ (s, f) :: l2 = l1' ++ (s, g) :: l2' -> Forall (fun e => fst e <> s) l2 -> Forall (fun e => fst e <> s) l2' -> f = g.
Proof.
  revert l1'. induction l1 as [|a l1 IH]; intros [|b l1'] E F1 F2; cbn [app] in E; injection E as E1 E2.
  - congruence.
  - rewrite E2 in F1. apply Forall_app in F1. destruct F1 as [_ F1]. apply Forall_cons_iff in F1. destruct F1 as [F1 _]. elim F1. reflexivity.
  - rewrite <- E2 in F2. apply Forall_app in F2. destruct F2 as [_ F2]. apply Forall_cons_iff in F2. destruct F2 as [F2 _]. elim F2. reflexivity.
  - exact (IH l1' E2 F1 F2).
Qed.
Lemma method_unique L : good_defs L -> forall id s f, method L id s f -> forall g, method L id s g -> f = g.
Proof.
  intros HG. assert (Z0 : forall d, In d L -> d_id d <> 0) by (intros d Hd; destruct HG as (_ & HH & _); rewrite Forall_forall in HH; exact (proj1 (HH d Hd))).
  assert (NO : forall d s (f : Z) (l1 l2 : list (Z * Z)), d_vmt d = l1 ++ (s, f) :: l2 -> Forall (fun e => fst e <> s) (d_vmt d) -> False).
  { intros d s f l1 l2 E F. rewrite E in F. apply Forall_app in F. destruct F as [_ F]. apply Forall_cons_iff in F. destruct F as [F _]. apply F. reflexivity. }
  assert (M0 : forall d s f, d_parent d = 0 -> method L (d_parent d) s f -> False).
  { intros d s f E M. rewrite E in M. inversion M as [e ? ? ? ? He ? ? E1|e ? ? He ? ? E1|e ? He ? ? E1]; exact (Z0 e He E1). }
  induction 1 as [d s f l1 l2 Hd E F|d s f Hd F M IH|d s Hd F P]; intros g Hg; inversion Hg as [e s' g' m1 m2 He E' F' E1 E2 E3|e s' g' He F' M' E1 E2 E3|e s' He F' P' E1 E2 E3]; subst;
    pose proof (def_unique L HG e d He Hd E1) as ->.
  - rewrite E in E'. exact (last_unique _ _ _ _ _ _ _ E' F F').
  - destruct (NO d s f l1 l2 E F').
  - destruct (NO d s f l1 l2 E F').
  - destruct (NO d s g m1 m2 E' F).
  - exact (IH g M').
  - destruct (M0 d s f P' M).
  - destruct (NO d s g m1 m2 E' F).
  - destruct (M0 d s g P M').
  - reflexivity.
Qed.
Lemma sorted_same l l' : strictly_sorted_by Z.sub l -> strictly_sorted_by Z.sub l' -> (forall x : Z, In x l <-> In x l') -> l = l'.
Proof.
  intros S. revert l'. induction S as [|x l S IH F]; intros [|y l'] S' H.
  - reflexivity.
  - destruct (proj2 (H y) (or_introl eq_refl)).
  - destruct (proj1 (H x) (or_introl eq_refl)).
  - inversion S' as [|? ? S2 F2]; subst. rewrite Forall_forall in F, F2.
    assert (E : x = y). { destruct (proj1 (H x) (or_introl eq_refl)) as [E|Hx]; [symmetry; exact E|]. destruct (proj2 (H y) (or_introl eq_refl)) as [E|Hy]; [exact E|]. specialize (F y Hy). specialize (F2 x Hx). cbv beta in *. lia. }
    subst y. f_equal. apply IH; [exact S2|]. intros z. split; intros Hz.
    + destruct (proj1 (H z) (or_intror Hz)) as [E|K]; [subst z; specialize (F x Hz); cbv beta in F; lia|exact K].
    + destruct (proj2 (H z) (or_intror Hz)) as [E|K]; [subst z; specialize (F2 x Hz); cbv beta in F2; lia|exact K].
Qed.

(** ** Lookups *)
Section Found.
Context (mk : Z -> bool) (L : list cdef) (HG : good_defs L).
Lemma found_iff r : Inv mk L r -> quiet r -> (forall x, In x (r_arr r) <-> In x (map d_id L)) -> forall id, found r id <-> exists d, In d L /\ d_id d = id /\ ~ fails mk L d.
Proof.
  intros I Q A id. split.
  - intros (Hid & c & Hc & S). apply A in Hid. apply in_map_iff in Hid. destruct Hid as (d & E & Hd). exists d. split; [exact Hd|]. split; [exact E|]. intros W. subst id.
    pose proof (proj2 (state_failed mk L HG r I Q A d c Hd Hc) W). lia.
  - intros (d & Hd & <- & NF). destruct (has_class mk L HG r I A d Hd) as (c & Hc & C). split; [apply A; apply in_map; exact Hd|]. exists c. split; [exact Hc|].
    destruct (co_state _ _ _ _ _ _ C) as [[S _]|[(S & W)|[S _]]]; [lia|elim NF; exact W|lia].
Qed.
Lemma lookups_ok : forall l r, Inv mk L r -> quiet r -> (forall x, In x (r_arr r) <-> In x (map d_id L)) ->
  exists os, lookups r l = Ok os /\ Forall2 (fun id o => (o = Some id /\ exists d, In d L /\ d_id d = id /\ ~ fails mk L d) \/ (o = None /\ ~ exists d, In d L /\ d_id d = id /\ ~ fails mk L d)) l os.
Proof.
  induction l as [|id l IH]; intros r I Q A; cbn [lookups]; [exists []; split; [reflexivity|constructor]|].
  destruct (find_class_ok mk L HG r id I) as (o & r' & -> & I' & A' & M' & H). cbn [bind fst snd]. destruct (IH r') as (os & -> & F).
  - exact I'.
  - intros x (Hx & c & Hc & S & P). apply (Q x). split; [rewrite <- A'; exact Hx|]. exists c. rewrite <- M'. split; [exact Hc|]. split; [exact S|exact P].
  - intros x. rewrite A'. apply A.
  - cbn [bind]. exists (o :: os). split; [reflexivity|]. constructor; [|exact F]. destruct H as [[-> H]|[-> H]]; [left|right]; (split; [reflexivity|]); rewrite <- (found_iff r I Q A id); exact H.
Qed.

(** ** Enumeration *)
Lemma candidates_ok rate x r : Inv mk L r -> quiet r -> (forall y, In y (r_arr r) <-> In y (map d_id L)) -> (forall d, In d L -> ready mk L (d_id d) \/ fails mk L d) ->
  forall l, incl l (r_arr r) -> strictly_sorted_by Z.sub l -> exists k c, (forall fuel, (k <= fuel)%nat -> candidates fuel rate x r l = Ok c) /\ StronglySorted (fun a b => t_id a < t_id b) c /\
    forall t, In t c <-> In (t_id t) l /\ exists d, In d L /\ d_id d = t_id t /\ ready mk L (t_id t) /\ Z.land (d_flags d) CFLAG_ABSTRACT = 0 /\ part_of L (t_id t) x /\ 0 < rate (t_id t) /\ t_pri t = d_pri d /\ t_rate t = rate (t_id t).
Proof.
  intros I Q A ALL. induction l as [|id l IH]; intros Hl Hs.
  - exists 0%nat, []. split; [reflexivity|]. split; [constructor|]. intros t. split; [intros []|intros [[] _]].
  - inversion Hs as [|? ? Hs' Fs]; subst. rewrite Forall_forall in Fs. destruct (IH (fun y Hy => Hl y (or_intror Hy)) Hs') as (k & c & K & SC & IC).
    assert (Hid : In id (r_arr r)) by (apply Hl; left; reflexivity). pose proof (proj1 (A id) Hid) as Hm. apply in_map_iff in Hm. destruct Hm as (d & <- & Hd). destruct (has_class mk L HG r I A d Hd) as (cl & Hc & C).
    assert (SKIP : (ready mk L (d_id d) -> Z.land (d_flags d) CFLAG_ABSTRACT = 0 -> part_of L (d_id d) x -> 0 < rate (d_id d) -> False) ->
      forall t, In t c <-> In (t_id t) (d_id d :: l) /\ exists d, In d L /\ d_id d = t_id t /\ ready mk L (t_id t) /\ Z.land (d_flags d) CFLAG_ABSTRACT = 0 /\ part_of L (t_id t) x /\ 0 < rate (t_id t) /\ t_pri t = d_pri d /\ t_rate t = rate (t_id t)).
    { intros NO t. rewrite IC. split; intros [H1 H2]; (split; [|exact H2]); [right; exact H1|]. destruct H1 as [H1|H1]; [|exact H1]. exfalso. destruct H2 as (e & He & E & R & F & P & T & _). rewrite <- E in H1.
      pose proof (def_unique L HG d e Hd He H1) as ->. rewrite <- E in *. exact (NO R F P T). }
    destruct (ALL d Hd) as [R|W].
    + pose proof (ready_inited mk L HG r I Q A _ R cl Hc) as S1. destruct (co_state _ _ _ _ _ _ C) as [(_ & _ & (_ & _ & Ef & Ep))|[[? _]|[? _]]]; [|lia|lia].
      destruct (part_ok mk L HG r I Q A _ R x) as (k2 & b & B & K2).
      destruct (Z.eqb_spec (Z.land (d_flags d) CFLAG_ABSTRACT) 0) as [F|F].
      * exists (Nat.max k k2), (if b && (0 <? rate (d_id d)) then mkRated (d_id d) (d_pri d) (rate (d_id d)) :: c else c). split; [|split].
        -- intros fuel Hf. cbn [candidates]. rewrite (deref_ok _ _ _ Hc). cbn [bind]. rewrite (K fuel ltac:(lia)). cbn [bind]. rewrite S1, Ef, F. change ((CLASS_REGISTERED <=? 1) && (0 =? 0)) with true. cbv iota. rewrite (K2 fuel ltac:(lia)). cbn [bind]. rewrite Ep. reflexivity.
        -- destruct (b && (0 <? rate (d_id d))); [|exact SC]. constructor; [exact SC|]. apply Forall_forall. intros t Ht. cbn [t_id]. apply IC in Ht. destruct Ht as [Ht _]. specialize (Fs _ Ht). cbv beta in Fs. lia.
        -- destruct (b && (0 <? rate (d_id d))) eqn:Eb.
           ++ apply andb_true_iff in Eb. destruct Eb as [Eb1 Eb2]. apply B in Eb1. apply Z.ltb_lt in Eb2. intros t. cbn [In]. rewrite IC. split.
              ** intros [<-|[H1 H2]]; [|split; [right; exact H1|exact H2]]. cbn [t_id t_pri t_rate]. split; [left; reflexivity|]. exists d. repeat (split; [assumption || reflexivity|]). reflexivity.
              ** intros [[H1|H1] H2]; [left|right; split; [exact H1|exact H2]]. destruct H2 as (e & He & E & _ & _ & _ & _ & T1 & T2). rewrite <- E in H1. pose proof (def_unique L HG d e Hd He H1) as ->. destruct t as [ti tp tr]. cbn [t_id t_pri t_rate] in *. congruence.
           ++ apply SKIP. intros _ _ P T. apply B in P. rewrite P in Eb. cbn [andb] in Eb. lia.
      * exists k, c. split; [|split; [exact SC|apply SKIP; intros _ F2; contradiction]]. intros fuel Hf. cbn [candidates]. rewrite (deref_ok _ _ _ Hc). cbn [bind]. rewrite (K fuel Hf). cbn [bind]. rewrite Ef, (proj2 (Z.eqb_neq _ _) F), andb_false_r. reflexivity.
    + pose proof (proj2 (state_failed mk L HG r I Q A d cl Hd Hc) W) as S2. exists k, c. split; [|split; [exact SC|apply SKIP]].
      * intros fuel Hf. cbn [candidates]. rewrite (deref_ok _ _ _ Hc). cbn [bind]. rewrite (K fuel Hf). cbn [bind]. rewrite S2. reflexivity.
      * intros R. inversion R as [e He We _ Ee]. rewrite (def_unique L HG e d He Hd Ee) in We. destruct W as [W _]. contradiction.
Qed.
End Found.

Lemma cmp_rated_lt a b : cmp_rated a b < 0 <-> better a b.
Proof.
  unfold cmp_rated, better.
  destruct (Z.ltb_spec (t_rate b) (t_rate a)); [lia|]. destruct (Z.ltb_spec (t_rate a) (t_rate b)); [lia|].
  destruct (Z.ltb_spec (t_pri b) (t_pri a)); [lia|]. destruct (Z.ltb_spec (t_pri a) (t_pri b)); [lia|].
  destruct (Z.ltb_spec (t_id b) (t_id a)); [lia|]. destruct (Z.ltb_spec (t_id a) (t_id b)); lia.
Qed.
Lemma cmp_rated_gt a b : 0 < cmp_rated a b <-> better b a.
Proof.
  unfold cmp_rated, better.
  destruct (Z.ltb_spec (t_rate b) (t_rate a)); [lia|]. destruct (Z.ltb_spec (t_rate a) (t_rate b)); [lia|].
  destruct (Z.ltb_spec (t_pri b) (t_pri a)); [lia|]. destruct (Z.ltb_spec (t_pri a) (t_pri b)); [lia|].
  destruct (Z.ltb_spec (t_id b) (t_id a)); [lia|]. destruct (Z.ltb_spec (t_id a) (t_id b)); lia.
Qed.
Lemma cmp_rated_pre : total_preorder cmp_rated.
Proof.
  split; [intros x y; rewrite cmp_rated_lt, cmp_rated_gt; reflexivity|]. intros x y z H1 H2.
  assert (N1 : ~ better y x) by (rewrite <- cmp_rated_gt; lia). assert (N2 : ~ better z y) by (rewrite <- cmp_rated_gt; lia). assert (N3 : ~ better z x) by (unfold better in *; lia). rewrite <- cmp_rated_gt in N3. lia.
Qed.
Lemma better_antisym a b : better a b -> better b a -> False.
Proof. unfold better. lia. Qed.
Lemma better_total a b : t_id a <> t_id b -> better a b \/ better b a.
Proof. unfold better. lia. Qed.

Definition trip (t : rated) : Z * Z * Z := (t_id t, t_pri t, t_rate t).
Lemma best_ok : forall l b, StronglySorted (fun a b => t_id a < t_id b) (b :: l) -> exists m, fold_left best_step l (trip b) = trip m /\ In m (b :: l) /\ forall y, In y (b :: l) -> y = m \/ better m y.
Proof.
  induction l as [|t l IH]; intros b S; cbn [fold_left]; [exists b; split; [reflexivity|]; split; [left; reflexivity|]; intros y [<-|[]]; left; reflexivity|].
  inversion S as [|? ? S1 F1]; subst. inversion S1 as [|? ? S2 F2]; subst. pose proof (Forall_inv F1) as Hbt. cbv beta in Hbt.
  assert (STEP : exists n, best_step (trip b) t = trip n /\ (n = b \/ n = t) /\ StronglySorted (fun a b => t_id a < t_id b) (n :: l) /\ (b = n \/ better n b) /\ (t = n \/ better n t)).
  { unfold best_step, trip at 1. destruct ((t_rate b <? t_rate t) || ((t_rate b =? t_rate t) && (t_pri b <? t_pri t))) eqn:E.
    - exists t. split; [reflexivity|]. split; [right; reflexivity|]. split; [exact S1|]. split; [right; unfold better; lia|left; reflexivity].
    - exists b. split; [reflexivity|]. split; [left; reflexivity|]. split; [constructor; [exact S2|exact (Forall_inv_tail F1)]|]. split; [left; reflexivity|right; unfold better; lia]. }
  destruct STEP as (n & -> & Hn & Sn & Bb & Bt). destruct (IH n Sn) as (m & E & Hm & B). exists m. split; [exact E|].
  assert (TR : forall y, y = n \/ better n y -> y = m \/ better m y).
  { intros y Hy. destruct (B n (or_introl eq_refl)) as [Q|Q]; [subst m; exact Hy|]. destruct Hy as [->|Hy]; [right; exact Q|]. right. unfold better in *. lia. }
  split.
  - destruct Hm as [<-|Hm]; [destruct Hn as [->| ->]; [left; reflexivity|right; left; reflexivity]|right; right; exact Hm].
  - intros y [<-|[<-|Hy]]; [apply TR; destruct Bb as [->|Q]; [left; reflexivity|right; exact Q]|apply TR; destruct Bt as [->|Q]; [left; reflexivity|right; exact Q]|apply B; right; exact Hy].
Qed.
Lemma enum_ok c : StronglySorted (fun a b => t_id a < t_id b) c -> Forall (fun t => 0 < t_rate t) c ->
  exists s, array_sort cmp_rated false false c = Some s /\ Permutation c s /\ StronglySorted better s /\ (let '(id, _, _) := fold_left best_step c (0, 0, 0) in id) = hd 0 (map t_id s).
Proof.
  intros S P. destruct (array_sort_sorted cmp_rated cmp_rated_pre false c) as (s & E & Hp & Hs). exists s. split; [exact E|]. split; [exact Hp|].
  assert (ND : NoDup (map t_id s)). { eapply Permutation_NoDup; [exact (Permutation_map t_id Hp)|]. clear -S. induction S as [|x l S IH F]; cbn [map]; constructor; [|exact IH]. rewrite Forall_forall in F. intros H. apply in_map_iff in H. destruct H as (y & Ey & Hy). specialize (F y Hy). cbv beta in F. lia. }
  assert (SB : StronglySorted better s).
  { clear -Hs ND. induction Hs as [|x l Hs IH F]; [constructor|]. cbn [map] in ND. apply NoDup_cons_iff in ND. destruct ND as [Nx ND]. constructor; [exact (IH ND)|]. rewrite Forall_forall in *. intros y Hy. specialize (F y Hy). cbv beta in F.
    destruct (better_total x y) as [H|H]; [intros E; apply Nx; rewrite E; apply in_map; exact Hy|exact H|]. apply cmp_rated_gt in H. lia. }
  split; [exact SB|]. destruct c as [|t c].
  - apply Permutation_nil in Hp. subst s. reflexivity.
  - cbn [fold_left]. pose proof (Forall_inv P) as P0. cbv beta in P0. replace (best_step (0, 0, 0) t) with (trip t) by (unfold best_step; replace (0 <? t_rate t) with true by lia; reflexivity).
    destruct (best_ok c t S) as (m & -> & Hm & B). unfold trip. destruct s as [|h s]; [apply Permutation_sym, Permutation_nil in Hp; discriminate|]. cbn [map hd].
    destruct (B h) as [->|Q]; [apply (Permutation_in h (Permutation_sym Hp)); left; reflexivity|reflexivity|]. exfalso. pose proof (Permutation_in m Hp Hm) as Hm2. destruct Hm2 as [->|Hm2]; [exact (better_antisym _ _ Q Q)|].
    inversion SB as [|? ? _ F]; subst. rewrite Forall_forall in F. exact (better_antisym _ _ Q (F m Hm2)).
Qed.

(** Definitions are good when a function tells the sizes. *)
Lemma good_by L (f : Z -> Z) : NoDup (map d_id L) -> f 0 = DEFAULT_VMT ->
  Forall (fun d => d_id d <> 0 /\ d_parent d <> d_id d /\ DEFAULT_VMT <= d_vsize d /\ f (d_id d) = (if d_vsize d =? DEFAULT_VMT then f (d_parent d) else d_vsize d) /\
    Forall (fun e => 2 <= fst e < f (d_id d)) (d_vmt d) /\ f (d_parent d) <= f (d_id d)) L -> good_defs L.
Proof.
  intros N F0 H. rewrite Forall_forall in H. assert (S : forall id n, vmt_size L id n -> n = f id).
  { induction 1 as [d Hd E|d Hd E P|d n Hd E _ IH]; destruct (H d Hd) as (_ & _ & _ & Q & _).
    - rewrite (proj2 (Z.eqb_neq _ _) E) in Q. congruence.
    - rewrite (proj2 (Z.eqb_eq _ _) E), P, F0 in Q. congruence.
    - rewrite (proj2 (Z.eqb_eq _ _) E) in Q. congruence. }
  split; [exact N|]. split; [apply Forall_forall; intros d Hd; destruct (H d Hd) as (Q1 & Q2 & Q3 & _); split; [exact Q1|split; [exact Q2|exact Q3]]|].
  intros d n Hd Hn. destruct (H d Hd) as (_ & _ & _ & _ & Q1 & Q2). rewrite (S _ _ Hn). split; [exact Q1|]. intros m Hm. rewrite (S _ _ Hm). exact Q2.
Qed.
