From Verif Require Import Base BaseProofs Arr ArrSpec ArrProofs ArrProofs2 ClassesProofs Tree NodeData Props PropsSpec.
From Coq Require Import Sorted.

Definition rel (a b : entry) : Prop := e_id a < e_id b \/ (e_id a = e_id b /\ (is_bit (e_meta a) = true -> is_bit (e_meta b) = true)).
Definition isid (id : Z) (e : entry) : bool := e_id e =? id.

Lemma sr_of {A} (R : A -> A -> Prop) (f : A -> Z) l : StronglySorted R l -> (forall x y, R x y -> (0 <= f x -> 0 <= f y) /\ (0 < f x -> 0 < f y)) -> search_ready f l.
Proof.
  intros H K. unfold search_ready. induction H as [|a l Hs IH Hf]; constructor; [exact IH|].
  eapply Forall_impl; [|exact Hf]. intros y Hy. apply K. exact Hy.
Qed.

Lemma cmp_key_none id a : cmp_key false id None a = if id <? e_id a then 1 else if e_id a <? id then -1 else 0.
Proof. unfold cmp_key. destruct (id <? e_id a), (e_id a <? id); reflexivity. Qed.

Lemma find_id l id : StronglySorted rel l -> exists i, array_find (cmp_key false id None) l = Some (i, existsb (isid id) l).
Proof.
  intros H. assert (R : search_ready (cmp_key false id None) l).
  { eapply sr_of; [exact H|]. intros x y [Q|[Q _]]; rewrite !cmp_key_none;
      destruct (Z.ltb_spec id (e_id x)), (Z.ltb_spec (e_id x) id), (Z.ltb_spec id (e_id y)), (Z.ltb_spec (e_id y) id); lia. }
  destruct (array_find_spec _ _ R) as [(p & x & s & E & -> & Z0)|(p & s & E & -> & Hp & Hs)]; rewrite E; eexists; do 2 f_equal; symmetry.
  - rewrite existsb_app. cbn [existsb]. rewrite cmp_key_none in Z0. unfold isid at 2.
    destruct (Z.ltb_spec id (e_id x)); [lia|]. destruct (Z.ltb_spec (e_id x) id); [lia|]. replace (e_id x =? id) with true by lia. apply orb_true_r.
  - assert (K : forall x, In x (p ++ s) -> isid id x = false).
    { intros x Hx. apply in_app_iff in Hx. unfold isid. destruct (Z.eqb_spec (e_id x) id) as [Q|Q]; [exfalso|reflexivity].
      assert (Z0 : cmp_key false id None x = 0) by (rewrite cmp_key_none, Q; replace (id <? id) with false by lia; reflexivity).
      destruct Hx as [Hx|Hx]; [rewrite Forall_forall in Hp; specialize (Hp x Hx)|rewrite Forall_forall in Hs; specialize (Hs x Hx)]; cbn beta in *; lia. }
    destruct (existsb (isid id) (p ++ s)) eqn:X; [|reflexivity]. apply existsb_exists in X. destruct X as (x & Hx & T). rewrite K in T by exact Hx. discriminate.
Qed.

Lemma insert_ok p l e : StronglySorted rel l -> (p = true -> is_bit (e_meta e) = false) -> (p = false -> forall x, In x l -> e_id x <> e_id e) ->
  exists a b, l = a ++ b /\ insert p l e = Some (a ++ e :: b) /\ StronglySorted rel (a ++ e :: b) /\
    (p = true -> forall x, In x a -> e_id x = e_id e -> is_bit (e_meta x) = false) /\ (forall x, In x b -> e_id x = e_id e -> is_bit (e_meta x) = true).
Proof.
  intros H Hp Hn. set (f := fun a => cmp_key p (e_id e) (Some (e_meta e)) a).
  assert (V : forall x, In x l -> (f x = -1 /\ (e_id x < e_id e \/ (e_id x = e_id e /\ is_bit (e_meta x) = false /\ p = true))) \/ (f x = 1 /\ (e_id e < e_id x \/ (e_id x = e_id e /\ is_bit (e_meta x) = true /\ p = true)))).
  { intros x Hx. unfold f, cmp_key. destruct (Z.ltb_spec (e_id e) (e_id x)) as [Q|Q]; [right; split; [reflexivity|left; lia]|].
    destruct (Z.ltb_spec (e_id x) (e_id e)) as [Q'|Q']; [left; split; [reflexivity|left; lia]|]. assert (X : e_id x = e_id e) by lia.
    destruct p; [|exfalso; exact (Hn eq_refl x Hx X)]. rewrite (Hp eq_refl). destruct (is_bit (e_meta x)); [right|left]; split; try reflexivity; right; auto. }
  assert (R : search_ready f l).
  { clear Hn. unfold search_ready. revert V. induction H as [|a l Hs IH Hf]; intros V; constructor; [apply IH; intros; apply V; right; assumption|].
    apply Forall_forall. intros y Hy. rewrite Forall_forall in Hf. pose proof (Hf y Hy) as Q. pose proof (V a (or_introl eq_refl)) as Va. pose proof (V y (or_intror Hy)) as Vy.
    destruct Va as [[Va Wa]|[Va Wa]]; [lia|]. destruct Vy as [[Vy Wy]|[Vy Wy]]; [exfalso|lia].
    destruct Q as [Q|[Q Q']]; destruct Wa as [Wa|(Wa & B & _)]; destruct Wy as [Wy|(Wy & B' & _)]; try lia. rewrite (Q' B) in B'. discriminate. }
  unfold insert, array_add. fold f. destruct (array_find_spec _ _ R) as [(q & x & s & E & -> & Z0)|(a & b & E & -> & Ha & Hb)].
  { exfalso. destruct (V x) as [[V0 _]|[V0 _]]; [apply in_elt|lia|lia]. }
  change (fun y => cmp_key p (e_id e) (Some (e_meta e)) y) with f. rewrite E. unfold item_insert. rewrite firstn_zlen, skipn_zlen.
  rewrite Forall_forall in Ha, Hb. exists a, b. split; [reflexivity|]. split; [reflexivity|].
  assert (Va : forall x, In x a -> e_id x < e_id e \/ (e_id x = e_id e /\ is_bit (e_meta x) = false /\ p = true)).
  { intros x Hx. pose proof (Ha x Hx). destruct (V x) as [[_ V0]|[V0 _]]; [apply in_or_app; left; exact Hx|exact V0|lia]. }
  assert (Vb : forall x, In x b -> e_id e < e_id x \/ (e_id x = e_id e /\ is_bit (e_meta x) = true /\ p = true)).
  { intros x Hx. pose proof (Hb x Hx). destruct (V x) as [[V0 _]|[_ V0]]; [apply in_or_app; right; exact Hx|lia|exact V0]. }
  split; [|split].
  - apply ss_app in H. destruct H as (H1 & H2 & H3). apply ss_app. split; [exact H1|]. split.
    + constructor; [exact H2|]. apply Forall_forall. intros y Hy. destruct (Vb y Hy) as [Q|(Q & B & _)]; [left; exact Q|right; auto].
    + intros x y Hx [<-|Hy]; [|exact (H3 x y Hx Hy)]. destruct (Va x Hx) as [Q|(Q & B & _)]; [left; exact Q|right; split; [exact Q|rewrite B; discriminate]].
  - intros _ x Hx Q. destruct (Va x Hx) as [Q'|(_ & B & _)]; [lia|exact B].
  - intros x Hx Q. destruct (Vb x Hx) as [Q'|(_ & B & _)]; [lia|exact B].
Qed.

(** ** The table *)
Lemma bit_in_ok id l b : bit_in id l = Some b -> e_id b = id /\ is_bit (e_meta b) = true.
Proof.
  induction l as [|e l IH]; cbn [bit_in]; [discriminate|]. destruct ((e_id e =? id) && is_bit (e_meta e)) eqn:X; [|exact IH].
  intros [= <-]. apply andb_true_iff in X. destruct X as [X1 X2]. split; [lia|exact X2].
Qed.
Lemma bit_lookup_ok id c b : bit_lookup id c = Some b -> e_id b = id /\ is_bit (e_meta b) = true.
Proof.
  induction c as [|l c IH]; cbn [bit_lookup]; [discriminate|]. destruct (bit_in id l) as [x|] eqn:X; [|exact IH]. intros [= <-]. exact (bit_in_ok id l x X).
Qed.

Section Table.
Context (w : want) (c : chain).
Definition cand (id : Z) (e : entry) : bool := isid id e && wanted w (e_meta e).
Definition shape (id : Z) (g : list entry) : list entry :=
  match g with
  | [] => []
  | e :: g' => if is_event (e_meta e) then e :: g'
               else if needs_bit (e_meta e) then match bit_lookup id c with Some b => [e; b] | None => [] end else [e]
  end.
Definition tinv (l done : list entry) : Prop := StronglySorted rel l /\ forall id, filter (isid id) l = shape id (filter (cand id) done).

Lemma filter_none {A} (f : A -> bool) l : (forall x, In x l -> f x = false) -> filter f l = [].
Proof. induction l as [|a l IH]; intros H; [reflexivity|]. cbn [filter]. rewrite (H a (or_introl eq_refl)). apply IH. intros x Hx. apply H. right. exact Hx. Qed.
Lemma filter_nil_in {A} (f : A -> bool) l x : filter f l = [] -> In x l -> f x = false.
Proof. intros E H. destruct (f x) eqn:X; [|reflexivity]. exfalso. assert (K : In x (filter f l)) by (apply filter_In; auto). rewrite E in K. destruct K. Qed.

Lemma filter_ins id a e b : filter (isid id) (a ++ e :: b) = filter (isid id) a ++ (if e_id e =? id then [e] else []) ++ filter (isid id) b.
Proof. rewrite filter_app. cbn [filter]. unfold isid at 2. destruct (e_id e =? id); reflexivity. Qed.

Lemma add_step full done e rest l : full = done ++ e :: rest ->
  (forall x y, In x full -> In y full -> e_id x = e_id y -> wanted w (e_meta x) = true -> wanted w (e_meta y) = true -> is_event (e_meta x) = is_event (e_meta y)) ->
  (forall x, In x full -> needs_bit (e_meta x) = true -> bit_lookup (e_id x) c <> None) ->
  wanted w (e_meta e) = true -> tinv l done -> exists l', add_lookup c l e = Some l' /\ tinv l' (done ++ [e]).
Proof.
  intros EF HA HB HW [HS HF]. unfold add_lookup.
  assert (NB : is_bit (e_meta e) = false) by (destruct (e_meta e); try reflexivity; destruct w; discriminate HW).
  assert (Hin : In e full) by (rewrite EF; apply in_elt).
  assert (Hdone : forall x, In x done -> In x full) by (intros x Hx; rewrite EF; apply in_or_app; left; exact Hx).
  assert (FA : forall id, filter (cand id) (done ++ [e]) = filter (cand id) done ++ (if e_id e =? id then [e] else [])).
  { intros id. rewrite filter_app. cbn [filter]. unfold cand at 2. rewrite HW, andb_true_r. reflexivity. }
  destruct (find_id l (e_id e) HS) as [i Ei]. rewrite Ei.
  destruct (filter (cand (e_id e)) done) as [|x g] eqn:G.
  - (* nothing for the ID yet *)
    assert (N : filter (isid (e_id e)) l = []) by (rewrite HF, G; reflexivity).
    assert (N' : forall x, In x l -> e_id x <> e_id e) by (intros x Hx; pose proof (filter_nil_in _ _ x N Hx) as Q; unfold isid in Q; lia).
    replace (existsb (isid (e_id e)) l) with false
      by (symmetry; destruct (existsb (isid (e_id e)) l) eqn:X; [|reflexivity]; apply existsb_exists in X; destruct X as (x & Hx & T); pose proof (N' x Hx); unfold isid in T; lia).
    cbn [negb orb]. destruct (needs_bit (e_meta e)) eqn:NE.
    + destruct (bit_lookup (e_id e) c) as [b|] eqn:EB; [|exfalso; exact (HB e Hin NE EB)]. destruct (bit_lookup_ok _ _ _ EB) as [Ib Bb].
      destruct (insert_ok false l b HS) as (a1 & b1 & -> & -> & S1 & _ & _); [discriminate|intros _; rewrite Ib; exact N'|].
      destruct (insert_ok true (a1 ++ b :: b1) e S1) as (a2 & b2 & E2 & -> & S2 & Ka & Kb); [intros _; exact NB|discriminate|].
      eexists. split; [reflexivity|]. split; [exact S2|]. intros id. rewrite FA, filter_ins.
      assert (EE : filter (isid id) a2 ++ filter (isid id) b2 = filter (isid id) a1 ++ (if e_id b =? id then [b] else []) ++ filter (isid id) b1) by (rewrite <- filter_app, <- E2; apply filter_ins).
      rewrite Ib in EE. destruct (Z.eqb_spec (e_id e) id) as [Q|Q].
      * subst id. rewrite G. rewrite filter_app in N. apply app_eq_nil in N. destruct N as [N1 N2]. rewrite N1, N2 in EE. cbn [app] in EE.
        assert (A0 : filter (isid (e_id e)) a2 = []).
        { destruct (filter (isid (e_id e)) a2) as [|y a2'] eqn:F2; [reflexivity|]. cbn [app] in EE. injection EE as Y _. subst y.
          assert (K : In b (filter (isid (e_id e)) a2)) by (rewrite F2; left; reflexivity). apply filter_In in K. destruct K as [K1 K2]. rewrite (Ka eq_refl b K1 Ib) in Bb. discriminate. }
        rewrite A0 in *. cbn [app] in *. rewrite EE. cbn [shape]. destruct (e_meta e) eqn:Em; try discriminate NE. cbn [is_event]. rewrite NE, EB. reflexivity.
      * cbn [app]. rewrite EE. cbn [app]. rewrite app_nil_r, <- filter_app. apply HF.
    + destruct (insert_ok true l e HS) as (a2 & b2 & -> & -> & S2 & _ & _); [intros _; exact NB|discriminate|].
      eexists. split; [reflexivity|]. split; [exact S2|]. intros id. rewrite FA, filter_ins. destruct (Z.eqb_spec (e_id e) id) as [Q|Q].
      * subst id. rewrite G. rewrite filter_app in N. apply app_eq_nil in N. destruct N as [-> ->]. cbn [app shape]. rewrite NE. destruct (is_event (e_meta e)); reflexivity.
      * cbn [app]. rewrite app_nil_r, <- filter_app. apply HF.
  - (* something is there *)
    assert (Kx : In x (filter (cand (e_id e)) done)) by (rewrite G; left; reflexivity). apply filter_In in Kx. destruct Kx as [Kx Cx].
    unfold cand in Cx. apply andb_true_iff in Cx. destruct Cx as [Ix Wx]. unfold isid in Ix.
    assert (EV : is_event (e_meta x) = is_event (e_meta e)) by (apply HA; auto; lia).
    assert (NN : filter (isid (e_id e)) l <> []).
    { rewrite HF, G. cbn [shape]. destruct (is_event (e_meta x)); [discriminate|]. destruct (needs_bit (e_meta x)) eqn:NX; [|discriminate].
      pose proof (HB x (Hdone x Kx) NX) as B0. replace (e_id x) with (e_id e) in B0 by lia. destruct (bit_lookup (e_id e) c); [discriminate|contradiction]. }
    replace (existsb (isid (e_id e)) l) with true.
    2:{ symmetry. destruct (filter (isid (e_id e)) l) as [|y t] eqn:Y; [contradiction|]. assert (Ky : In y (filter (isid (e_id e)) l)) by (rewrite Y; left; reflexivity).
        apply filter_In in Ky. apply existsb_exists. exists y. exact Ky. }
    cbn [negb orb]. destruct (is_event (e_meta e)) eqn:EE.
    + replace (needs_bit (e_meta e)) with false by (destruct (e_meta e); try reflexivity; discriminate EE).
      destruct (insert_ok true l e HS) as (a2 & b2 & -> & -> & S2 & Ka & Kb); [intros _; exact NB|discriminate|].
      eexists. split; [reflexivity|]. split; [exact S2|]. intros id. rewrite FA, filter_ins. destruct (Z.eqb_spec (e_id e) id) as [Q|Q].
      * subst id. pose proof (HF (e_id e)) as H0. rewrite G in H0 |- *. cbn [shape] in H0. rewrite EV, filter_app in H0. cbn [app shape]. rewrite EV.
        replace (filter (isid (e_id e)) b2) with (@nil entry) in *.
        { rewrite app_nil_r in H0. rewrite H0. reflexivity. }
        symmetry. destruct (filter (isid (e_id e)) b2) as [|y t] eqn:Y; [reflexivity|]. exfalso.
        assert (Ky : In y (filter (isid (e_id e)) b2)) by (rewrite Y; left; reflexivity). apply filter_In in Ky. destruct Ky as [Ky1 Ky2]. unfold isid in Ky2.
        assert (By : is_bit (e_meta y) = true) by (apply Kb; [exact Ky1|lia]).
        assert (Kg : In y (x :: g)) by (rewrite <- H0; apply in_elt). rewrite <- G in Kg. apply filter_In in Kg. destruct Kg as [_ Kg]. unfold cand in Kg. apply andb_true_iff in Kg. destruct Kg as [_ Kg].
        destruct (e_meta y); try discriminate By. destruct w; discriminate Kg.
      * cbn [app]. rewrite app_nil_r, <- filter_app. apply HF.
    + exists l. split; [reflexivity|]. split; [exact HS|]. intros id. rewrite FA. destruct (Z.eqb_spec (e_id e) id) as [Q|Q]; [|rewrite app_nil_r; apply HF].
      subst id. rewrite HF, G. cbn [app shape]. rewrite EV. reflexivity.
Qed.

Lemma add_all_ok full : 
  (forall x y, In x full -> In y full -> e_id x = e_id y -> wanted w (e_meta x) = true -> wanted w (e_meta y) = true -> is_event (e_meta x) = is_event (e_meta y)) ->
  (forall x, In x full -> needs_bit (e_meta x) = true -> bit_lookup (e_id x) c <> None) ->
  forall es done l, full = done ++ es -> tinv l done -> exists l', add_all w c l es = Some l' /\ tinv l' full.
Proof.
  intros HA HB. induction es as [|e es IH]; intros done l EF HT; cbn [add_all].
  - exists l. split; [reflexivity|]. rewrite EF, app_nil_r. exact HT.
  - destruct (wanted w (e_meta e)) eqn:W.
    + destruct (add_step full done e es l EF HA HB W HT) as (l1 & -> & T1). apply (IH (done ++ [e])); [rewrite EF, <- app_assoc; reflexivity|exact T1].
    + apply (IH (done ++ [e])); [rewrite EF, <- app_assoc; reflexivity|]. destruct HT as [T1 T2]. split; [exact T1|]. intros id. rewrite filter_app. cbn [filter]. unfold cand at 2. rewrite W, andb_false_r, app_nil_r. apply T2.
Qed.
End Table.

(** ** The search *)
Lemma split_id l id : StronglySorted rel l -> exists P S, l = P ++ filter (isid id) l ++ S /\ Forall (fun e => e_id e < id) P /\ Forall (fun e => id < e_id e) S.
Proof.
  induction 1 as [|a l Hs (P & S & E & HP & HS) Hf]; [exists [], []; auto|]. cbn [filter]. rewrite Forall_forall in Hf.
  unfold isid at 1. destruct (Z.eqb_spec (e_id a) id) as [Q|Q].
  - assert (P = []) as ->.
    { destruct P as [|x P]; [reflexivity|]. exfalso. apply Forall_cons_iff in HP. destruct HP as [HP _]. assert (Hx : In x l) by (rewrite E; left; reflexivity). destruct (Hf x Hx) as [R|[R _]]; lia. }
    exists [], S. cbn [app] in *. split; [f_equal; exact E|]. auto.
  - destruct (Z.ltb_spec (e_id a) id) as [Q'|Q'].
    + exists (a :: P), S. cbn [app]. split; [f_equal; exact E|]. auto.
    + assert (G : filter (isid id) l = []).
      { apply filter_none. intros x Hx. unfold isid. destruct (Hf x Hx) as [R|[R _]]; lia. }
      exists [], (a :: l). rewrite G. split; [reflexivity|]. split; [constructor|]. constructor; [lia|]. apply Forall_forall. intros x Hx. destruct (Hf x Hx) as [R|[R _]]; lia.
Qed.

Lemma aget_some {A} (l : list A) i : 0 <= i < zlen l -> exists x, aget l i = Some x /\ In x l.
Proof. intros H. destruct (aget_split l i H) as (p & x & s & -> & <-). exists x. split; [apply aget_mid|apply in_elt]. Qed.

Lemma bs_ok P G S id : Forall (fun e => e_id e < id) P -> Forall (fun e => e_id e = id) G -> Forall (fun e => id < e_id e) S ->
  forall fuel lo up, (Z.to_nat (up - lo + 1) < fuel)%nat -> 0 <= lo <= zlen P -> zlen P + zlen G - 1 <= up < zlen P + zlen G + zlen S ->
  (G = [] /\ bs_loop fuel (P ++ G ++ S) id lo up = Ok None) \/ (exists mid, bs_loop fuel (P ++ G ++ S) id lo up = Ok (Some mid) /\ zlen P <= mid < zlen P + zlen G).
Proof.
  intros HP HG HS. induction fuel as [|fuel IH]; intros lo up Hf Hlo Hup; [lia|]. cbn [bs_loop].
  pose proof (zlen_nonneg P). pose proof (zlen_nonneg G). pose proof (zlen_nonneg S).
  destruct (Z.ltb_spec up lo) as [Q|Q].
  { left. split; [|reflexivity]. destruct G; [reflexivity|]. rewrite zlen_cons in *. pose proof (zlen_nonneg G). lia. }
  rewrite Z.shiftr_div_pow2 by lia. change (2 ^ 1) with 2. set (mid := (up + lo) / 2). assert (M : lo <= mid <= up) by (unfold mid; lia).
  destruct (Z.ltb_spec mid (zlen P)) as [C|C].
  - rewrite aget_app_l by exact C. destruct (aget_some P mid ltac:(lia)) as (x & EP & Ep). rewrite !EP. cbn [opt_res bind].
    rewrite Forall_forall in HP. assert (Hx : e_id x < id) by (apply HP; exact Ep).
    replace (id <? e_id x) with false by lia. replace (e_id x <? id) with true by lia. apply IH; lia.
  - rewrite aget_app_r by exact C. destruct (Z.ltb_spec (mid - zlen P) (zlen G)) as [D|D].
    + rewrite aget_app_l by exact D. destruct (aget_some G (mid - zlen P) ltac:(lia)) as (x & EP & Ep). rewrite !EP. cbn [opt_res bind].
      rewrite Forall_forall in HG. assert (Hx : e_id x = id) by (apply HG; exact Ep).
      replace (id <? e_id x) with false by lia. replace (e_id x <? id) with false by lia. right. exists mid. split; [reflexivity|lia].
    + rewrite aget_app_r by exact D. destruct (aget_some S (mid - zlen P - zlen G) ltac:(lia)) as (x & EP & Ep). rewrite !EP. cbn [opt_res bind].
      rewrite Forall_forall in HS. assert (Hx : id < e_id x) by (apply HS; exact Ep).
      replace (id <? e_id x) with true by lia. apply IH; lia.
Qed.

Lemma rewind_ok P G S id : Forall (fun e => e_id e < id) P -> Forall (fun e => e_id e = id) G ->
  forall n mid, (Z.to_nat mid < n)%nat -> zlen P <= mid < zlen P + zlen G -> rewind n (P ++ G ++ S) id mid = Ok (zlen P).
Proof.
  intros HP HG. induction n as [|n IH]; intros mid Hn Hm; [lia|]. cbn [rewind]. pose proof (zlen_nonneg P).
  destruct (Z.ltb_spec 0 mid) as [Q|Q]; [|f_equal; lia].
  destruct (Z.ltb_spec (mid - 1) (zlen P)) as [C|C].
  - rewrite aget_app_l by exact C. destruct (aget_some P (mid - 1) ltac:(lia)) as (x & EP & Ep). rewrite !EP. cbn [opt_res bind].
    rewrite Forall_forall in HP. assert (Hx : e_id x < id) by (apply HP; exact Ep). replace (e_id x =? id) with false by lia. f_equal. lia.
  - rewrite aget_app_r by exact C. rewrite aget_app_l by lia. destruct (aget_some G (mid - 1 - zlen P) ltac:(lia)) as (x & EP & Ep). rewrite !EP. cbn [opt_res bind].
    rewrite Forall_forall in HG. assert (Hx : e_id x = id) by (apply HG; exact Ep). replace (e_id x =? id) with true by lia. apply IH; lia.
Qed.

Definition ev_fun (e : entry) : list Z := match e_meta e with MEvent f => [f] | _ => [] end.
Lemma collect_ok G S id : Forall (fun e => e_id e = id /\ is_event (e_meta e) = true) G -> Forall (fun e => id < e_id e) S -> collect (G ++ S) id = Ok (flat_map ev_fun G).
Proof.
  induction 1 as [|e G [I V] _ IH]; intros HS; cbn [app].
  - destruct HS as [|x S Hx _]; [reflexivity|]. cbn [collect flat_map]. replace (e_id x =? id) with false by lia. reflexivity.
  - cbn [collect flat_map]. replace (e_id e =? id) with true by lia. unfold ev_fun at 1. destruct (e_meta e); try discriminate V. rewrite (IH HS). reflexivity.
Qed.

Definition act_of (g : list entry) : action :=
  match g with
  | [] => ANone
  | e :: g' =>
      match e_meta e with
      | MGet f | MSet f | MUnSet f => ACall f
      | MEvent _ => AEvents (flat_map ev_fun g)
      | MData ty ofs fl u => AData ty ofs fl u (match g' with b :: _ => match e_meta b with MBit m => Some m | _ => None end | [] => None end)
      | MBit _ => ANone
      end
  end.
(** The shapes of a group. *)
Inductive okgroup (w : want) (id : Z) : list entry -> Prop :=
| og_nil : okgroup w id []
| og_one e : e_id e = id -> wanted w (e_meta e) = true -> is_event (e_meta e) = false -> needs_bit (e_meta e) = false -> okgroup w id [e]
| og_bit e b : e_id e = id -> wanted w (e_meta e) = true -> needs_bit (e_meta e) = true -> e_id b = id -> is_bit (e_meta b) = true -> okgroup w id [e; b]
| og_ev e g : w <> WGet -> Forall (fun e => e_id e = id /\ is_event (e_meta e) = true) (e :: g) -> okgroup w id (e :: g).

Lemma resolve_ok w l id : StronglySorted rel l -> okgroup w id (filter (isid id) l) -> resolve w l id = Ok (act_of (filter (isid id) l)).
Proof.
  intros HS OG. destruct (split_id l id HS) as (P & S & E & HP & HQ). set (G := filter (isid id) l) in *.
  assert (HG : Forall (fun e => e_id e = id) G) by (apply Forall_forall; intros x Hx; apply filter_In in Hx; destruct Hx as [_ Hx]; unfold isid in Hx; lia).
  clearbody G. rewrite E. unfold resolve. pose proof (zlen_nonneg P). pose proof (zlen_nonneg G). pose proof (zlen_nonneg S).
  assert (L : zlen (P ++ G ++ S) = zlen P + zlen G + zlen S) by (rewrite !zlen_app; lia).
  assert (L' : (length (P ++ G ++ S) = Z.to_nat (zlen P + zlen G + zlen S))%nat) by (rewrite <- L; unfold zlen; lia).
  destruct (bs_ok P G S id HP HG HQ (Datatypes.S (length (P ++ G ++ S))) 0 (zlen (P ++ G ++ S) - 1)) as [[-> B]|(mid & B & M)]; [rewrite L', L; lia|lia|rewrite L; lia| |]; rewrite B; cbn [bind].
  { reflexivity. }
  destruct OG as [|e I W NE NB|e b I W NB Ib Bb|e g NW OG].
  - unfold zlen in M. cbn in M. lia.
  - rewrite zlen_cons in M. change (zlen (@nil entry)) with 0 in M. assert (mid = zlen P) as -> by lia. cbn [app]. rewrite aget_mid. cbn [opt_res bind act_of].
    destruct (e_meta e) eqn:Em; destruct w; try discriminate; cbn [needs_bit] in NB; try reflexivity; unfold data_at; rewrite aget_mid; cbn [opt_res bind]; rewrite Em, NB; reflexivity.
  - rewrite !zlen_cons in M. change (zlen (@nil entry)) with 0 in M. cbn [app].
    destruct (e_meta e) as [f|f|f|f|f|ty ofs fl u] eqn:Em; try discriminate NB. cbn [needs_bit] in NB. destruct (e_meta b) as [f|f|f|f|m|? ? ? ?] eqn:Eb; try discriminate Bb.
    assert (A1 : aget (P ++ e :: b :: S) (zlen P) = Some e) by apply aget_mid.
    assert (A2 : aget (P ++ e :: b :: S) (zlen P + 1) = Some b).
    { replace (P ++ e :: b :: S) with ((P ++ [e]) ++ b :: S) by (rewrite <- app_assoc; reflexivity). replace (zlen P + 1) with (zlen (P ++ [e])) by (rewrite zlen_app; reflexivity). apply aget_mid. }
    assert (DA : data_at (P ++ e :: b :: S) id (zlen P) = Ok (act_of [e; b])).
    { unfold data_at. rewrite A1. cbn [opt_res bind]. rewrite Em, NB, A2. cbn [opt_res bind act_of]. rewrite Em, Eb. replace (e_id b =? id) with true by lia. reflexivity. }
    assert (mid = zlen P \/ mid = zlen P + 1) as [-> | ->] by lia.
    + rewrite A1. cbn [opt_res bind]. rewrite Em. destruct w; exact DA.
    + rewrite A2. cbn [opt_res bind]. rewrite Eb. replace (zlen P + 1 - 1) with (zlen P) by lia. destruct w; exact DA.
  - rewrite aget_app_r by lia. rewrite aget_app_l by lia. destruct (aget_some (e :: g) (mid - zlen P) ltac:(lia)) as (x & EP & Ep). rewrite !EP. cbn [opt_res bind].
    assert (Hx : is_event (e_meta x) = true) by (rewrite Forall_forall in OG; apply OG; exact Ep).
    destruct (e_meta x) as [f|f|f|f|f|? ? ? ?] eqn:Ex; try discriminate Hx.
    assert (K : (do k <- rewind (Datatypes.S (length (P ++ (e :: g) ++ S))) (P ++ (e :: g) ++ S) id mid; do fs <- collect (skipn (Z.to_nat k) (P ++ (e :: g) ++ S)) id; Ok (AEvents fs)) = Ok (act_of (e :: g))).
    { rewrite (rewind_ok P (e :: g) S id HP HG) by (first [exact M|rewrite L'; lia]). cbn [bind]. rewrite skipn_zlen, (collect_ok (e :: g) S id OG HQ). cbn [bind act_of].
      apply Forall_cons_iff in OG. destruct OG as [[_ V] _]. destruct (e_meta e) eqn:Em; try discriminate V. reflexivity. }
    destruct w; [contradiction|exact K|exact K].
Qed.
