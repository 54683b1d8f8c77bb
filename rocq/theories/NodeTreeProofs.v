(** Proofs about the node tree model. *)
From Coq Require Import Relations Permutation.
From Verif Require Import Base BaseProofs Arr ArrSpec ArrProofs ArrProofs2 NodeTree NodeTreeSpec.

Lemma chain_ext h h' l : forall x, (forall y, In y l -> n_next (h' y) = n_next (h y)) -> chain h x l -> chain h' x l.
Proof.
  induction l as [|y l IH]; cbn [chain]; intros x He H; [exact H|]. destruct H as (-> & Hy & H).
  split; [reflexivity|]. split; [exact Hy|]. rewrite He by (left; reflexivity). apply IH; [|exact H]. intros; apply He; right; assumption.
Qed.

Lemma chain_hd h x l : chain h x l -> x = hd 0 l.
Proof. destruct l; cbn [chain hd]; intros H; [exact H|apply H]. Qed.

Lemma chain_in h l : forall x y, chain h x l -> In y l -> y <> 0.
Proof.
  induction l as [|z l IH]; cbn [chain In]; intros x y H Hi; [contradiction|]. destruct H as (_ & Hz & H).
  destruct Hi as [<-|Hi]; [exact Hz|exact (IH _ _ H Hi)].
Qed.

(** Redirecting the Next of [z] to a new chain. *)
Lemma chain_redirect h h' z l2 m : forall l1 x, chain h x (l1 ++ z :: l2) -> NoDup (l1 ++ z :: l2) ->
  (forall y, In y l1 -> n_next (h' y) = n_next (h y)) -> chain h' (n_next (h' z)) m -> chain h' x (l1 ++ z :: m).
Proof.
  induction l1 as [|y l1 IH]; cbn [app chain]; intros x H Hn He Hm.
  - destruct H as (-> & Hz & H). auto.
  - destruct H as (-> & Hy & H). inversion Hn as [|? ? Hni Hn']; subst. split; [reflexivity|]. split; [exact Hy|].
    rewrite He by (left; reflexivity). apply IH; [exact H|exact Hn'| |exact Hm]. intros; apply He; right; assumption.
Qed.

Lemma chain_suffix h l2 : forall l1 x z, chain h x (l1 ++ z :: l2) -> chain h (n_next (h z)) l2.
Proof.
  induction l1 as [|y l1 IH]; cbn [app chain]; intros x z H; [apply H|]. destruct H as (_ & _ & H). exact (IH _ _ H).
Qed.

Definition link_of (i : link) (l1 : list Z) (j : link) : Prop :=
  (l1 = [] /\ j = i) \/ exists l0 z, l1 = l0 ++ [z] /\ j = LNext z.

Lemma find_link_spec h t : forall l fuel i, chain h (deref h i) l -> (length l <= fuel)%nat ->
  exists j l1 l2, find_link fuel h i t = Some j /\ l = l1 ++ l2 /\ ~ In t l1 /\ (l2 = [] \/ exists l', l2 = t :: l') /\ link_of i l1 j.
Proof.
  induction l as [|y l IH]; intros fuel i Hc Hf.
  - cbn [chain] in Hc. exists i, [], []. destruct fuel; cbn [find_link]; rewrite Hc, Z.eqb_refl; cbn [orb];
      (split; [reflexivity|]; split; [reflexivity|]; split; [intros []|]; split; [left; reflexivity|left; auto]).
  - cbn [chain] in Hc. destruct Hc as (Hd & Hy & Hc). cbn [length] in Hf. destruct fuel as [|fuel]; [lia|].
    cbn [find_link]. rewrite Hd. replace (y =? 0) with false by lia. cbn [orb]. destruct (Z.eqb_spec y t) as [->|Hne].
    + exists i, [], (t :: l). split; [reflexivity|]. split; [reflexivity|]. split; [intros []|]. split; [right; eauto|left; auto].
    + destruct (IH fuel (LNext y) Hc ltac:(lia)) as (j & l1 & l2 & Ej & -> & Hni & Hl2 & Hj). exists j, (y :: l1), l2.
      split; [exact Ej|]. split; [reflexivity|]. split; [intros [E|E]; [lia|contradiction]|]. split; [exact Hl2|].
      right. destruct Hj as [[-> ->]|(l0 & z & -> & ->)]; [exists [], y; auto|exists (y :: l0), z; auto].
Qed.

(** ** Field access after stores *)
Lemma store_next h j v y : n_next (store h j v y) = match j with LNext c => if y =? c then v else n_next (h y) | _ => n_next (h y) end.
Proof. destruct j; cbn [store]; unfold set_kids, set_next, hset; destruct (Z.eqb_spec y p) || destruct (Z.eqb_spec y c); subst; reflexivity. Qed.
Lemma store_kids h j v y : n_kids (store h j v y) = match j with LKids c => if y =? c then v else n_kids (h y) | _ => n_kids (h y) end.
Proof. destruct j; cbn [store]; unfold set_kids, set_next, hset; destruct (Z.eqb_spec y p) || destruct (Z.eqb_spec y c); subst; reflexivity. Qed.
Lemma store_par h j v y : n_par (store h j v y) = n_par (h y).
Proof. destruct j; cbn [store]; unfold set_kids, set_next, hset; destruct (Z.eqb_spec y p) || destruct (Z.eqb_spec y c); subst; reflexivity. Qed.
Lemma set_next_next h x v y : n_next (set_next h x v y) = if y =? x then v else n_next (h y).
Proof. unfold set_next, hset. destruct (y =? x); reflexivity. Qed.
Lemma set_next_kids h x v y : n_kids (set_next h x v y) = n_kids (h y).
Proof. unfold set_next, hset. destruct (Z.eqb_spec y x); subst; reflexivity. Qed.
Lemma set_next_par h x v y : n_par (set_next h x v y) = n_par (h y).
Proof. unfold set_next, hset. destruct (Z.eqb_spec y x); subst; reflexivity. Qed.
Lemma set_par_next h x v y : n_next (set_par h x v y) = n_next (h y).
Proof. unfold set_par, hset. destruct (Z.eqb_spec y x); subst; reflexivity. Qed.
Lemma set_par_kids h x v y : n_kids (set_par h x v y) = n_kids (h y).
Proof. unfold set_par, hset. destruct (Z.eqb_spec y x); subst; reflexivity. Qed.
Lemma set_par_par h x v y : n_par (set_par h x v y) = if y =? x then v else n_par (h y).
Proof. unfold set_par, hset. destruct (y =? x); reflexivity. Qed.
Ltac fields := repeat (rewrite ?store_next, ?store_kids, ?store_par, ?set_next_next, ?set_next_kids, ?set_next_par, ?set_par_next, ?set_par_kids, ?set_par_par).

Lemma insert_before_app b x l1 : forall l2, ~ In b l1 -> (l2 = [] \/ exists l', l2 = b :: l') -> insert_before b x (l1 ++ l2) = l1 ++ x :: l2.
Proof.
  induction l1 as [|y l1 IH]; intros l2 Hn Hl; cbn [app insert_before].
  - destruct Hl as [->|(l' & ->)]; cbn [insert_before]; [reflexivity|]. rewrite Z.eqb_refl. reflexivity.
  - destruct (Z.eqb_spec y b) as [->|_]; [exfalso; apply Hn; left; reflexivity|]. f_equal. apply IH; [|exact Hl]. intros H. apply Hn. right. exact H.
Qed.
Lemma insert_before_in b x l y : In y (insert_before b x l) <-> y = x \/ In y l.
Proof.
  induction l as [|z l IH]; cbn [insert_before In]; [intuition|]. destruct (z =? b); cbn [In]; [intuition|]. rewrite IH. intuition.
Qed.
Lemma insert_before_nodup b x l : NoDup l -> ~ In x l -> NoDup (insert_before b x l).
Proof.
  induction l as [|z l IH]; cbn [insert_before In]; intros Hn Hx; [constructor; [intros []|constructor]|].
  inversion Hn; subst. destruct (z =? b); [constructor; [cbn [In]; tauto|assumption]|].
  constructor; [rewrite insert_before_in; intros [->|H]; tauto|apply IH; tauto].
Qed.
Lemma remove_app_in x l1 : forall l2, NoDup (l1 ++ x :: l2) -> remove Z.eq_dec x (l1 ++ x :: l2) = l1 ++ l2.
Proof.
  induction l1 as [|y l1 IH]; intros l2 H; cbn [app remove] in *.
  - destruct (Z.eq_dec x x) as [_|]; [|congruence]. inversion H; subst. apply notin_remove. assumption.
  - inversion H as [|? ? Hni Hn]; subst. destruct (Z.eq_dec x y) as [->|Hne]; [exfalso; apply Hni, in_or_app; right; left; reflexivity|].
    f_equal. apply IH. exact Hn.
Qed.
Lemma remove_nodup x l : NoDup l -> NoDup (remove Z.eq_dec x l).
Proof.
  induction 1 as [|y l Hy H IH]; cbn [remove]; [constructor|]. destruct (Z.eq_dec x y); [exact IH|]. constructor; [|exact IH].
  intros Hi. apply in_remove in Hi. tauto.
Qed.
Lemma remove_in x l y : In y (remove Z.eq_dec x l) <-> In y l /\ y <> x.
Proof. split; [apply in_remove|intros [H1 H2]; apply in_in_remove; assumption]. Qed.

(** ** RemoveChild and AddChild *)
Lemma remove_child_ok fuel h F p x : rep h F -> p <> 0 -> In x (F p) -> (length (F p) <= fuel)%nat ->
  exists h', remove_child fuel h p x = Some h' /\ rep h' (detached F x) /\ n_par (h' x) = 0.
Proof.
  intros [Rc Rn Rp Rf] Hp Hin Hf. destruct (proj1 (Rp p x Hp) Hin) as [Hx Hxp].
  destruct (find_link_spec h x (F p) fuel (LKids p) (Rc p Hp) Hf) as (j & l1 & l2 & Ej & El & Hni & Hl2 & Hj).
  destruct Hl2 as [->|(l' & ->)]; [rewrite app_nil_r in El; rewrite El in Hin; contradiction|].
  unfold remove_child. rewrite Ej. pose proof (Rc p Hp) as Hch. pose proof (Rn p Hp) as Hnd. rewrite El in Hch, Hnd.
  assert (Hdj : deref h j = x).
  { destruct Hj as [[-> ->]|(l0 & z & -> & ->)]; [exact (chain_hd _ _ _ Hch)|]. rewrite <- app_assoc in Hch.
    exact (chain_hd _ _ _ (chain_suffix h (x :: l') l0 _ z Hch)). }
  rewrite Hdj, Z.eqb_refl. eexists. split; [reflexivity|].
  assert (Hout : forall q c, q <> 0 -> q <> p -> In c (F q) -> ~ In c (F p)).
  { intros q c Hq Hqp H1 H2. apply (Rp q c Hq) in H1. apply (Rp p c Hp) in H2. lia. }
  assert (Hnl : forall y, j = LNext y -> y <> x /\ In y (F p)).
  { intros y Ey. destruct Hj as [[_ ->]|(l0 & z & -> & ->)]; [discriminate|]. injection Ey as ->. rewrite El. split.
    - intros ->. apply Hni, in_or_app. right. left. reflexivity.
    - apply in_or_app. left. apply in_or_app. right. left. reflexivity. }
  split; [|fields; rewrite Z.eqb_refl; reflexivity].
  constructor.
  - intros q Hq. unfold detached. destruct (Z.eq_dec q p) as [->|Hqp].
    + rewrite El, remove_app_in by exact Hnd. destruct Hj as [[-> ->]|(l0 & z & -> & ->)].
      * cbn [app] in *. fields. rewrite Z.eqb_refl. destruct Hch as (_ & _ & Hch). eapply chain_ext; [|exact Hch].
        intros y Hy. fields. inversion Hnd; subst. destruct (Z.eqb_spec y x) as [->|_]; [contradiction|reflexivity].
      * fields. rewrite <- app_assoc in Hch, Hnd |- *. cbn [app] in *.
        eapply chain_redirect with (h := h) (l2 := x :: l'); [exact Hch|exact Hnd| |].
        -- intros y Hy. fields. destruct (Z.eqb_spec y x) as [->|_]; [exfalso; apply Hni, in_or_app; left; exact Hy|].
           destruct (Z.eqb_spec y z) as [->|_]; [|reflexivity]. apply NoDup_remove_2 in Hnd. exfalso. apply Hnd, in_or_app. left. exact Hy.
        -- fields. rewrite Z.eqb_refl. replace (z =? x) with false by (pose proof (Hnl z eq_refl); lia).
           eapply chain_ext; [|exact (chain_suffix h l' (l0 ++ [z]) (n_kids (h p)) x ltac:(rewrite <- app_assoc; exact Hch))].
           intros y Hy. fields. destruct (Z.eqb_spec y x) as [->|_].
           { exfalso. apply NoDup_remove_1, NoDup_remove_2 in Hnd. apply Hnd, in_or_app. right. exact Hy. }
           destruct (Z.eqb_spec y z) as [->|_]; [|reflexivity]. apply NoDup_remove_2 in Hnd. exfalso. apply Hnd, in_or_app. right. right. exact Hy.
    + rewrite notin_remove by (intros H; exact (Hout q x Hq Hqp H Hin)). fields.
      replace (match j with LKids c => if q =? c then n_next (h x) else n_kids (h q) | LNext _ => n_kids (h q) end) with (n_kids (h q)).
      2:{ destruct j as [c|c]; [|reflexivity]. destruct Hj as [[_ E]|(l0 & z & _ & E)]; [|discriminate]. injection E as ->.
          replace (q =? p) with false by lia. reflexivity. }
      eapply chain_ext; [|exact (Rc q Hq)]. intros y Hy. fields. destruct (Z.eqb_spec y x) as [->|_]; [exfalso; exact (Hout q x Hq Hqp Hy Hin)|].
      destruct j as [c|c]; [reflexivity|]. destruct (Z.eqb_spec y c) as [->|_]; [|reflexivity].
      exfalso. exact (Hout q c Hq Hqp Hy (proj2 (Hnl c eq_refl))).
  - intros q Hq. apply remove_nodup, Rn, Hq.
  - intros q c Hq. unfold detached. rewrite remove_in, (Rp q c Hq). fields. destruct (Z.eqb_spec c x) as [->|Hcx]; [lia|tauto].
  - intros c Hc. fields. destruct (Z.eqb_spec c x) as [->|Hcx]; [reflexivity|]. intros H0. destruct j as [k|k]; [exact (Rf c Hc H0)|].
    destruct (Z.eqb_spec c k) as [->|_]; [|exact (Rf c Hc H0)]. destruct (Hnl k eq_refl) as [_ Hk]. apply (Rp p k Hp) in Hk. lia.
Qed.

Lemma add_child_ok fuel h F p x b : rep h F -> p <> 0 -> x <> 0 -> n_par (h x) = 0 -> b = 0 \/ In b (F p) -> (length (F p) <= fuel)%nat ->
  exists h', add_child fuel h p x b = Some h' /\ rep h' (attached F x p b).
Proof.
  intros [Rc Rn Rp Rf] Hp Hx Hx0 Hb Hf.
  destruct (find_link_spec h b (F p) fuel (LKids p) (Rc p Hp) Hf) as (j & l1 & l2 & Ej & El & Hni & Hl2 & Hj).
  unfold add_child. rewrite Ej. pose proof (Rc p Hp) as Hch. pose proof (Rn p Hp) as Hnd. rewrite El in Hch, Hnd.
  eexists. split; [reflexivity|].
  assert (Hxn : forall q, q <> 0 -> ~ In x (F q)) by (intros q Hq H; apply (Rp q x Hq) in H; lia).
  assert (Hout : forall q c, q <> 0 -> q <> p -> In c (F q) -> ~ In c (F p)).
  { intros q c Hq Hqp H1 H2. apply (Rp q c Hq) in H1. apply (Rp p c Hp) in H2. lia. }
  assert (Hnl : forall y, j = LNext y -> In y (F p)).
  { intros y Ey. destruct Hj as [[_ ->]|(l0 & z & -> & ->)]; [discriminate|]. injection Ey as ->. rewrite El.
    apply in_or_app. left. apply in_or_app. right. left. reflexivity. }
  assert (Hl2b : chain h b l2).
  { destruct Hl2 as [->|(l' & ->)].
    - rewrite app_nil_r in El. cbn [chain]. destruct Hb as [Hb|Hb]; [exact Hb|]. rewrite El in Hb. contradiction.
    - assert (Hc2 : exists y, chain h y (b :: l')).
      { clear - Hch. revert Hch. generalize (n_kids (h p)). induction l1 as [|a l1 IH]; cbn [app]; intros y H; [eauto|]. destruct H as (_ & _ & H). eauto. }
      destruct Hc2 as (y & Hy). pose proof Hy as Hy2. destruct Hy as (-> & _). exact Hy2. }
  constructor.
  - intros q Hq. unfold attached. destruct (Z.eqb_spec q p) as [->|Hqp].
    + rewrite El, insert_before_app by assumption.
      assert (Hx2 : ~ In x l1 /\ ~ In x l2) by (specialize (Hxn p Hp); rewrite El in Hxn; split; intros H; apply Hxn, in_or_app; auto).
      assert (Htail : forall h', n_next (h' x) = b -> (forall y, In y l2 -> n_next (h' y) = n_next (h y)) -> chain h' x (x :: l2)).
      { intros h' E1 E2. cbn [chain]. rewrite E1. split; [reflexivity|]. split; [exact Hx|]. eapply chain_ext; [exact E2|exact Hl2b]. }
      destruct Hj as [[-> ->]|(l0 & z & -> & ->)].
      * cbn [app]. fields. rewrite Z.eqb_refl. apply Htail; [fields; rewrite Z.eqb_refl; reflexivity|]. intros y Hy. fields.
        destruct (Z.eqb_spec y x) as [->|_]; [tauto|reflexivity].
      * fields. rewrite <- app_assoc in Hch, Hnd |- *. cbn [app] in *.
        assert (Hzx : z <> x) by (intros ->; apply (proj1 Hx2), in_or_app; right; left; reflexivity).
        eapply chain_redirect with (h := h) (l2 := l2); [exact Hch|exact Hnd| |].
        -- intros y Hy. fields. destruct (Z.eqb_spec y z) as [->|_].
           { apply NoDup_remove_2 in Hnd. exfalso. apply Hnd, in_or_app. left. exact Hy. }
           destruct (Z.eqb_spec y x) as [->|_]; [|reflexivity]. exfalso. apply (proj1 Hx2), in_or_app. left. exact Hy.
        -- fields. rewrite Z.eqb_refl. apply Htail.
           { fields. replace (x =? z) with false by lia. rewrite Z.eqb_refl. reflexivity. }
           intros y Hy. fields. destruct (Z.eqb_spec y z) as [->|_].
           { apply NoDup_remove_2 in Hnd. exfalso. apply Hnd, in_or_app. right. exact Hy. }
           destruct (Z.eqb_spec y x) as [->|_]; [tauto|reflexivity].
    + fields. replace (match j with LKids c => if q =? c then x else n_kids (h q) | LNext _ => n_kids (h q) end) with (n_kids (h q)).
      2:{ destruct j as [c|c]; [|reflexivity]. destruct Hj as [[_ E]|(l0 & z & _ & E)]; [|discriminate]. injection E as ->.
          replace (q =? p) with false by lia. reflexivity. }
      eapply chain_ext; [|exact (Rc q Hq)]. intros y Hy. fields.
      assert (y <> x) by (intros ->; exact (Hxn q Hq Hy)). replace (y =? x) with false by lia.
      destruct j as [c|c]; [reflexivity|]. destruct (Z.eqb_spec y c) as [->|_]; [|reflexivity].
      exfalso. exact (Hout q c Hq Hqp Hy (Hnl c eq_refl)).
  - intros q Hq. unfold attached. destruct (q =? p); [apply insert_before_nodup|]; auto.
  - intros q c Hq. fields. unfold attached. destruct (Z.eqb_spec q p) as [->|Hqp].
    + rewrite insert_before_in, (Rp p c Hp). destruct (Z.eqb_spec c x) as [->|]; [tauto|]. tauto.
    + rewrite (Rp q c Hq). destruct (Z.eqb_spec c x) as [->|]; [lia|tauto].
  - intros c Hc. fields. destruct (Z.eqb_spec c x) as [->|Hcx]; [lia|]. intros H0. destruct j as [k|k]; [exact (Rf c Hc H0)|].
    destruct (Z.eqb_spec c k) as [->|_]; [|exact (Rf c Hc H0)]. pose proof (Hnl k eq_refl) as Hk. apply (Rp p k Hp) in Hk. lia.
Qed.

Lemma rep_ext h F G : rep h F -> (forall p, p <> 0 -> F p = G p) -> rep h G.
Proof.
  intros [R1 R2 R3 R4] H. constructor; [| | |exact R4]; intros p; intros; rewrite <- H by assumption; auto.
Qed.
Lemma detached_out h F x : rep h F -> n_par (h x) = 0 -> forall p, p <> 0 -> F p = detached F x p.
Proof.
  intros R H p Hp. symmetry. apply notin_remove. intros Hi. apply (rep_par h F R p x Hp) in Hi. lia.
Qed.

(** ** SetParent *)
Lemma next_reinsert h x l : forall y, chain h y l -> NoDup l -> In x l -> y <> 0 -> ~ In 0 l ->
  insert_before (n_next (h x)) x (remove Z.eq_dec x l) = l.
Proof.
  intros y Hc Hn Hi Hy H0. apply in_split in Hi. destruct Hi as (l1 & l2 & ->).
  rewrite remove_app_in by exact Hn. pose proof (chain_hd _ _ _ (chain_suffix h l2 l1 y x Hc)) as Hd. rewrite Hd.
  apply insert_before_app.
  - destruct l2 as [|b l2]; cbn [hd]; intros H; [apply H0, in_or_app; left; exact H|].
    apply (NoDup_remove_1 l1 (b :: l2) x) in Hn. apply NoDup_remove_2 in Hn. apply Hn, in_or_app. left. exact H.
  - destruct l2 as [|b l2]; [left; reflexivity|right; cbn [hd]; eauto].
Qed.

Lemma set_parent_ok fuel h F x parent b : rep h F -> call_ok F (x, parent, b) -> (forall p, p <> 0 -> (length (F p) <= fuel)%nat) ->
  exists h', set_parent fuel h x parent b = Some h' /\ rep h' (moved F x parent b).
Proof.
  intros R [Hx Hb] Hf. unfold set_parent, moved. destruct (Z.eqb_spec x b) as [->|Hxb]; cbn [negb andb].
  { exists h. auto. }
  destruct (Z.eqb_spec (n_par (h x)) parent) as [Hpar|Hpar]; destruct (Z.eqb_spec (n_next (h x)) b) as [Hnx|Hnx]; cbn [negb orb].
  { (* already there *)
    exists h. split; [reflexivity|]. eapply rep_ext; [exact R|]. intros p Hp. unfold attached, detached.
    destruct (Z.eqb_spec p parent) as [->|Hpp].
    - assert (Hin : In x (F parent)) by (apply (rep_par h F R); auto). symmetry. rewrite <- Hnx.
      apply (next_reinsert h x (F parent) (n_kids (h parent))); [apply (rep_chain h F R), Hp|apply (rep_nodup h F R), Hp|exact Hin| |].
      + rewrite (chain_hd _ _ _ (rep_chain h F R parent Hp)). destruct (F parent) as [|z l] eqn:El; [destruct Hin|]. cbn [hd].
        intros ->. pose proof (proj1 (rep_par h F R parent 0 Hp)) as Hz. rewrite El in Hz. apply Hz; [left; reflexivity|reflexivity].
      + intros H0. apply (rep_par h F R parent 0 Hp) in H0. tauto.
    - symmetry. apply notin_remove. intros Hi. apply (rep_par h F R p x Hp) in Hi. lia. }
  all: assert (H1 : exists h1, (if negb (n_par (h x) =? 0) then remove_child fuel h (n_par (h x)) x else Some h) = Some h1 /\
    rep h1 (detached F x) /\ n_par (h1 x) = 0)
    by (destruct (Z.eqb_spec (n_par (h x)) 0) as [E0|E0]; cbn [negb];
        [exists h; split; [reflexivity|]; split; [eapply rep_ext; [exact R|exact (detached_out h F x R E0)]|exact E0]
        |apply remove_child_ok; [exact R|exact E0|apply (rep_par h F R); auto|auto]]).
  all: destruct H1 as (h1 & -> & R1 & Hp1).
  all: destruct (Z.eqb_spec parent 0) as [->|Hp0]; cbn [negb];
    [exists h1; split; [reflexivity|]; eapply rep_ext; [exact R1|]; intros p Hp; unfold attached; replace (p =? 0) with false by lia; reflexivity|].
  all: apply add_child_ok; [exact R1|exact Hp0|exact Hx|exact Hp1| |].
  all: try (destruct Hb as [Hb|[_ Hb]]; [left; exact Hb|right; apply remove_in; split; [exact Hb|congruence]]).
  all: unfold detached; specialize (Hf parent Hp0); pose proof (remove_length_le Z.eq_dec (F parent) x); lia.
Qed.

(** Every list is at most one longer after a call. *)
Lemma insert_before_length b x l : length (insert_before b x l) = S (length l).
Proof. induction l as [|y l IH]; cbn [insert_before]; [reflexivity|]. destruct (y =? b); cbn [length]; [reflexivity|rewrite IH; reflexivity]. Qed.
Lemma moved_length F x parent b p : (length (moved F x parent b p) <= S (length (F p)))%nat.
Proof.
  unfold moved. destruct (x =? b); [lia|]. unfold attached, detached. pose proof (remove_length_le Z.eq_dec (F p) x).
  destruct (p =? parent); [rewrite insert_before_length|]; lia.
Qed.

Lemma run_calls_ok : forall cs fuel h F, rep h F -> calls_ok F cs -> (forall p, p <> 0 -> (length (F p) + length cs <= fuel)%nat) ->
  exists h', run_calls fuel h cs = Some h' /\ rep h' (fold_left call_moves cs F).
Proof.
  induction cs as [|[[x parent] b] cs IH]; intros fuel h F R Hok Hf.
  - exists h. split; [reflexivity|exact R].
  - cbn [calls_ok] in Hok. destruct Hok as [Hc Hok].
    destruct (set_parent_ok fuel h F x parent b R Hc ltac:(intros p Hp; specialize (Hf p Hp); lia)) as (h1 & E1 & R1).
    cbn [run_calls fold_left call_moves] in *. rewrite E1. apply IH; [exact R1|exact Hok|]. intros p Hp. specialize (Hf p Hp). cbn [length] in Hf.
    pose proof (moved_length F x parent b p). lia.
Qed.

Lemma rep_empty : rep empty_heap empty_forest.
Proof.
  constructor; cbn [empty_heap empty_forest n_kids n_next n_par chain In]; intros; auto; [constructor|].
  split; [intros []|]. intros [_ H1]. congruence.
Qed.

(** ** Cycles *)
Lemma moved_path F x parent b a c : clos_trans Z (parent_of (moved F x parent b)) a c ->
  clos_trans Z (parent_of F) a c \/ (clos_refl_trans Z (parent_of F) a parent /\ clos_refl_trans Z (parent_of F) x c).
Proof.
  induction 1 as [a c [Ha Hc]|a c d _ IH1 _ IH2].
  - unfold moved in Hc. destruct (x =? b) eqn:Exb; [left; apply t_step; split; assumption|].
    unfold attached in Hc. destruct (Z.eqb_spec a parent) as [->|_].
    + apply insert_before_in in Hc. destruct Hc as [->|Hc]; [right; split; apply rt_refl|].
      apply remove_in in Hc. left. apply t_step. split; tauto.
    + apply remove_in in Hc. left. apply t_step. split; tauto.
  - assert (Ht : forall u v, clos_trans Z (parent_of F) u v -> clos_refl_trans Z (parent_of F) u v) by
      (intros u v H; induction H; [apply rt_step; assumption|eapply rt_trans; eassumption]).
    destruct IH1 as [H1|[H1 H1']]; destruct IH2 as [H2|[H2 H2']].
    + left. eapply t_trans; eassumption.
    + right. split; [eapply rt_trans; [apply Ht; exact H1|exact H2]|exact H2'].
    + right. split; [exact H1|eapply rt_trans; [exact H1'|apply Ht; exact H2]].
    + right. split; [exact H1|exact H2'].
Qed.
Lemma moved_acyclic F x parent b : acyclic F -> call_sane F (x, parent, b) -> acyclic (moved F x parent b).
Proof.
  intros Ha Hs y H. apply moved_path in H. destruct H as [H|[H1 H2]]; [exact (Ha y H)|]. apply Hs. eapply rt_trans; eassumption.
Qed.
Lemma calls_acyclic : forall cs F, acyclic F -> calls_sane F cs -> acyclic (fold_left call_moves cs F).
Proof.
  induction cs as [|[[x parent] b] cs IH]; intros F Ha Hs; [exact Ha|]. destruct Hs as [H1 H2]. cbn [fold_left]. apply IH; [|exact H2].
  apply moved_acyclic; assumption.
Qed.
Lemma empty_acyclic : acyclic empty_forest.
Proof. intros x H. apply clos_trans_t1n in H. destruct H as [? [_ []]|? ? [_ []]]. Qed.

(** ** Masters *)
Lemma find_elt_ok h eid id : forall l fuel x, chain h x l -> (length l <= fuel)%nat -> find_elt fuel h eid x id = Some (first_with eid id l).
Proof.
  induction l as [|y l IH]; intros fuel x Hc Hf; cbn [chain] in Hc.
  - subst x. destruct fuel; reflexivity.
  - destruct Hc as (-> & Hy & Hc). cbn [length] in Hf. destruct fuel as [|fuel]; [lia|]. cbn [find_elt]. replace (y =? 0) with false by lia.
    unfold first_with. cbn [find]. destruct (eid y =? id); [reflexivity|]. exact (IH fuel _ Hc ltac:(lia)).
Qed.
Lemma collect_ok h : forall l fuel x, chain h x l -> (length l <= fuel)%nat -> collect fuel h x = Some l.
Proof.
  induction l as [|y l IH]; intros fuel x Hc Hf; cbn [chain] in Hc.
  - subst x. destruct fuel; reflexivity.
  - destruct Hc as (-> & Hy & Hc). cbn [length] in Hf. destruct fuel as [|fuel]; [lia|]. cbn [collect]. replace (y =? 0) with false by lia.
    rewrite (IH fuel _ Hc) by lia. reflexivity.
Qed.

Lemma rep_head_not_in h F p y l : rep h F -> p <> 0 -> F p = y :: l -> ~ In y l.
Proof. intros R Hp E. pose proof (rep_nodup h F R p Hp) as H. rewrite E in H. inversion H; assumption. Qed.

(** All the children of [p] taken out. *)
Definition emptied (F : forest) (p : Z) : forest := fun q => if q =? p then [] else F q.
Lemma detach_all_ok p : p <> 0 -> forall l fuel h F, rep h F -> F p = l -> (length l <= fuel)%nat ->
  exists h', detach_all fuel h p = Some h' /\ rep h' (emptied F p).
Proof.
  intros Hp. induction l as [|y l IH]; intros fuel h F R El Hf.
  - exists h. pose proof (rep_chain h F R p Hp) as Hc. rewrite El in Hc. cbn [chain] in Hc.
    split; [destruct fuel; cbn [detach_all]; rewrite Hc; reflexivity|]. eapply rep_ext; [exact R|].
    intros q Hq. unfold emptied. destruct (Z.eqb_spec q p) as [->|]; [exact El|reflexivity].
  - cbn [length] in Hf. destruct fuel as [|fuel]; [lia|]. cbn [detach_all].
    pose proof (rep_chain h F R p Hp) as Hc. rewrite El in Hc. destruct Hc as (-> & Hy & Hc). replace (y =? 0) with false by lia.
    assert (Hyp : n_par (h y) = p) by (apply (rep_par h F R p y Hp); rewrite El; left; reflexivity).
    assert (E1 : exists h1, set_parent (S fuel) h y 0 0 = Some h1 /\ rep h1 (detached F y)).
    { unfold set_parent. replace (y =? 0) with false by lia. rewrite Hyp. replace (p =? 0) with false by lia. cbn [negb andb orb].
      destruct (remove_child_ok (S fuel) h F p y R Hp ltac:(rewrite El; left; reflexivity) ltac:(rewrite El; cbn [length]; lia)) as (h1 & -> & R1 & _).
      exists h1. auto. }
    destruct E1 as (h1 & -> & R1).
    assert (El1 : detached F y p = l).
    { unfold detached. rewrite El. cbn [remove]. destruct (Z.eq_dec y y) as [_|]; [|congruence]. apply notin_remove. exact (rep_head_not_in h F p y l R Hp El). }
    destruct (IH fuel h1 (detached F y) R1 El1 ltac:(lia)) as (h2 & E2 & R2). exists h2. split; [exact E2|].
    eapply rep_ext; [exact R2|]. intros q Hq. unfold emptied. destruct (Z.eqb_spec q p) as [->|Hqp]; [reflexivity|].
    apply notin_remove. intros Hi. apply (rep_par h F R q y Hq) in Hi. lia.
Qed.

(** [l] put under [p] in order. *)
Lemma refill_ok p : p <> 0 -> forall l fuel h F, rep h F -> (forall x, In x l -> x <> 0 /\ forall q, q <> 0 -> ~ In x (F q)) -> NoDup l ->
  (length (F p) + length l <= fuel)%nat ->
  exists h', refill fuel h p l = Some h' /\ rep h' (fun q => if q =? p then F p ++ l else F q).
Proof.
  intros Hp. induction l as [|x l IH]; intros fuel h F R Hfree Hnd Hf.
  - exists h. split; [reflexivity|]. eapply rep_ext; [exact R|]. intros q Hq. destruct (Z.eqb_spec q p) as [->|]; [symmetry; apply app_nil_r|reflexivity].
  - destruct (Hfree x ltac:(left; reflexivity)) as [Hx Hxo].
    assert (Hx0 : n_par (h x) = 0).
    { destruct (Z.eq_dec (n_par (h x)) 0) as [E|E]; [exact E|]. exfalso. apply (Hxo (n_par (h x)) E). apply (rep_par h F R); auto. }
    cbn [refill length] in *.
    assert (E1 : exists h1, set_parent fuel h x p 0 = Some h1 /\ rep h1 (attached F x p 0)).
    { unfold set_parent. replace (x =? 0) with false by lia. rewrite Hx0. replace (0 =? p) with false by lia. cbn [negb andb orb Z.eqb].
      replace (p =? 0) with false by lia. cbn [negb]. apply add_child_ok; auto. lia. }
    destruct E1 as (h1 & -> & R1). inversion Hnd as [|? ? Hxl Hnd']; subst.
    assert (Ap : attached F x p 0 p = F p ++ [x]).
    { unfold attached. rewrite Z.eqb_refl. rewrite <- (app_nil_r (F p)) at 1. apply insert_before_app; [|left; reflexivity].
      intros H0. apply (rep_par h F R p 0 Hp) in H0. tauto. }
    destruct (IH fuel h1 (attached F x p 0) R1) as (h2 & E2 & R2).
    + intros y Hy. destruct (Hfree y ltac:(right; exact Hy)) as [Hy0 Hyo]. split; [exact Hy0|]. intros q Hq H.
      unfold attached in H. destruct (Z.eqb_spec q p) as [->|]; [|exact (Hyo q Hq H)]. apply insert_before_in in H.
      destruct H as [->|H]; [contradiction|exact (Hyo p Hp H)].
    + exact Hnd'.
    + rewrite Ap, app_length. cbn [length]. lia.
    + exists h2. split; [exact E2|]. eapply rep_ext; [exact R2|]. intros q Hq. rewrite Ap, <- app_assoc. unfold attached.
      destruct (q =? p); reflexivity.
Qed.

Lemma master_sort_ok fuel h F (cmp : Z -> Z -> Z) m : rep h F -> m <> 0 -> (length (F m) <= fuel)%nat -> (forall x, 0 <= cmp x x) ->
  exists r h', array_sort cmp true false (F m) = Some r /\ Permutation (F m) r /\
    master_sort fuel h cmp m = Some h' /\ rep h' (fun q => if q =? m then r else F q).
Proof.
  intros R Hm Hf Hc. destruct (array_sort_perm cmp Hc true (F m)) as (r & Er & Hr). unfold master_sort.
  rewrite (collect_ok h (F m) fuel _ (rep_chain h F R m Hm) Hf), Er.
  destruct (detach_all_ok m Hm (F m) fuel h F R eq_refl Hf) as (h1 & -> & R1).
  destruct (refill_ok m Hm r fuel h1 (emptied F m) R1) as (h2 & E2 & R2).
  - intros x Hx. apply (Permutation_in x (Permutation_sym Hr)) in Hx. pose proof (proj1 (rep_par h F R m x Hm) Hx) as [Hx0 Hxp].
    split; [exact Hx0|]. intros q Hq Hi. unfold emptied in Hi. destruct (Z.eqb_spec q m) as [->|Hqm]; [destruct Hi|].
    apply (rep_par h F R q x Hq) in Hi. lia.
  - eapply Permutation_NoDup; [exact Hr|apply (rep_nodup h F R), Hm].
  - unfold emptied. rewrite Z.eqb_refl. rewrite <- (Permutation_length Hr). cbn [length]. lia.
  - exists r, h2. split; [reflexivity|]. split; [exact Hr|]. split; [exact E2|]. eapply rep_ext; [exact R2|]. intros q Hq. unfold emptied.
    rewrite Z.eqb_refl. destruct (q =? m); reflexivity.
Qed.

Lemma find_next_elt_ok fuel h F eid m cur l1 l2 : rep h F -> m <> 0 -> F m = l1 ++ cur :: l2 -> (length (F m) <= fuel)%nat ->
  find_next_elt fuel h eid cur = Some (first_with eid (eid cur) l2).
Proof.
  intros R Hm El Hf. pose proof (rep_chain h F R m Hm) as Hc. rewrite El in Hc, Hf. unfold find_next_elt.
  assert (cur <> 0) by (eapply chain_in; [exact Hc|apply in_or_app; right; left; reflexivity]). replace (cur =? 0) with false by lia.
  apply find_elt_ok; [exact (chain_suffix h l2 l1 _ cur Hc)|]. rewrite app_length in Hf. cbn [length] in Hf. lia.
Qed.

Lemma master_append_ok fuel h F m e : rep h F -> m <> 0 -> e <> 0 -> n_par (h e) = 0 -> (length (F m) <= fuel)%nat ->
  exists h', master_append fuel h m e = Some h' /\ rep h' (fun q => if q =? m then F m ++ [e] else F q).
Proof.
  intros R Hm He H0 Hf. unfold master_append.
  destruct (refill_ok m Hm [e] (S fuel) h F R) as (h' & E & R').
  - intros x [<-|[]]. split; [exact He|]. intros q Hq Hi. apply (rep_par h F R q e Hq) in Hi. lia.
  - constructor; [intros []|constructor].
  - cbn [length]. lia.
  - clear h' E R'. unfold set_parent. replace (e =? 0) with false by lia. rewrite H0. replace (0 =? m) with false by lia. cbn [negb andb orb Z.eqb].
    replace (m =? 0) with false by lia. cbn [negb]. destruct (add_child_ok fuel h F m e 0 R Hm He H0 ltac:(auto) Hf) as (h' & -> & R').
    exists h'. split; [reflexivity|]. eapply rep_ext; [exact R'|]. intros q Hq. unfold attached. destruct (Z.eqb_spec q m) as [->|]; [|reflexivity].
    rewrite <- (app_nil_r (F m)) at 1. apply insert_before_app; [|left; reflexivity].
    intros Hi. apply (rep_par h F R m 0 Hm) in Hi. tauto.
Qed.

Lemma tree_clear_ok fuel h F p : rep h F -> p <> 0 -> (forall q, q <> 0 -> (length (F q) <= fuel)%nat) ->
  exists h', tree_clear fuel h p = Some h' /\ rep h' (detached (emptied F p) p).
Proof.
  intros R Hp Hf. unfold tree_clear. destruct (detach_all_ok p Hp (F p) fuel h F R eq_refl (Hf p Hp)) as (h1 & -> & R1).
  destruct (set_parent_ok fuel h1 (emptied F p) p 0 0 R1) as (h2 & E2 & R2).
  - split; [exact Hp|left; reflexivity].
  - intros q Hq. unfold emptied. destruct (q =? p); [cbn [length]; lia|auto].
  - exists h2. split; [exact E2|]. eapply rep_ext; [exact R2|]. intros q Hq. unfold moved. replace (p =? 0) with false by lia.
    unfold attached. replace (q =? 0) with false by lia. reflexivity.
Qed.

Lemma move_before_ok fuel h F p x b : rep h F -> p <> 0 -> In x (F p) -> x = b \/ b = 0 \/ In b (F p) -> (length (F p) <= fuel)%nat ->
  exists h', move_before fuel h x b = Some h' /\ rep h' (moved F x p b).
Proof.
  intros R Hp Hx Hb Hf. unfold move_before, moved. destruct (Z.eqb_spec x b) as [->|Hxb]; cbn [negb]; [exists h; auto|].
  destruct (proj1 (rep_par h F R p x Hp) Hx) as [Hx0 Hxp]. rewrite Hxp.
  destruct (remove_child_ok fuel h F p x R Hp Hx Hf) as (h1 & -> & R1 & Hp1).
  apply add_child_ok; [exact R1|exact Hp|exact Hx0|exact Hp1| |].
  - destruct Hb as [Hb|[Hb|Hb]]; [congruence|left; exact Hb|right; apply remove_in; split; [exact Hb|congruence]].
  - unfold detached. pose proof (remove_length_le Z.eq_dec (F p) x). lia.
Qed.
