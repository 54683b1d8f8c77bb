From Coq Require Import Sorted.
From Verif Require Import Base BaseProofs Arr ArrSpec ArrProofs2 Lookup LookupSpec.

Definition sorted (l : list meta) : Prop := StronglySorted (fun x y => m_id x <= m_id y) l.
Definition same (id : Z) (m : meta) : bool := m_id m =? id.
Notation only id l := (filter (same id) l).

Lemma sorted_app p s : sorted (p ++ s) <-> sorted p /\ sorted s /\ Forall (fun x => Forall (fun y => m_id x <= m_id y) s) p.
Proof.
  unfold sorted. induction p as [|x p IH]; cbn [app].
  - split; [intros H; split; [constructor|split; [exact H|constructor]]|intros (_ & H & _); exact H].
  - split.
    + intros H. apply StronglySorted_inv in H as [H F]. apply IH in H as (H1 & H2 & H3). apply Forall_app in F as [F1 F2]. split; [constructor; assumption|]. split; [exact H2|]. constructor; assumption.
    + intros (H1 & H2 & H3). apply StronglySorted_inv in H1 as [H1 F]. inversion H3; subst. constructor; [apply IH; split; [exact H1|split; assumption]|]. apply Forall_app. split; assumption.
Qed.
Lemma ready_id id l : sorted l -> search_ready (cmp_id id) l.
Proof.
  unfold sorted, search_ready. induction 1 as [|x l _ IH F]; constructor; [exact IH|]. revert F. apply Forall_impl. intros y H. unfold cmp_id. destruct (Z.ltb_spec id (m_id x)), (Z.ltb_spec id (m_id y)), (Z.ltb_spec (m_id x) id), (Z.ltb_spec (m_id y) id); lia.
Qed.
Lemma ready_new last m u l : sorted l -> (forall y, In y l -> m_id y = m_id m -> cmp_new last y m = u) -> search_ready (fun y => cmp_new last y m) l.
Proof.
  unfold sorted, search_ready. induction 1 as [|x l _ IH F]; intros U; constructor; [apply IH; intros y I; apply U; right; exact I|].
  apply Forall_forall. intros y I. rewrite Forall_forall in F. specialize (F y I). pose proof (U x (or_introl eq_refl)) as Ux. pose proof (U y (or_intror I)) as Uy.
  assert (L : forall z, m_id m < m_id z -> cmp_new last z m = 1) by (intros z Hz; unfold cmp_new; replace (m_id m <? m_id z) with true by lia; reflexivity).
  assert (S : forall z, m_id z < m_id m -> cmp_new last z m = -1) by (intros z Hz; unfold cmp_new; replace (m_id m <? m_id z) with false by lia; replace (m_id z <? m_id m) with true by lia; reflexivity).
  destruct (Z.lt_trichotomy (m_id x) (m_id m)) as [X|[X|X]], (Z.lt_trichotomy (m_id y) (m_id m)) as [Y|[Y|Y]]; try lia;
    repeat (match goal with H : m_id ?z < m_id m |- _ => rewrite (S z H) in *; clear H | H : m_id m < m_id ?z |- _ => rewrite (L z H) in *; clear H | H : m_id ?z = m_id m, K : m_id ?z = m_id m -> _ |- _ => rewrite (K H) in *; clear K end); lia.
Qed.
Lemma only_nil id l : (forall y, In y l -> m_id y <> id) -> only id l = [].
Proof. induction l as [|x l IH]; intros H; [reflexivity|]. cbn [filter]. unfold same at 1. pose proof (H x (or_introl eq_refl)). replace (m_id x =? id) with false by lia. apply IH. intros y I. apply H. right. exact I. Qed.
Lemma only_in id l y : In y (only id l) <-> In y l /\ m_id y = id.
Proof. rewrite filter_In. unfold same. rewrite Z.eqb_eq. reflexivity. Qed.
Lemma cmp_id_sign last y m : (cmp_new last y m < 0 -> m_id y <= m_id m) /\ (0 < cmp_new last y m -> m_id m <= m_id y).
Proof. unfold cmp_new. destruct (Z.ltb_spec (m_id m) (m_id y)); [lia|]. destruct (Z.ltb_spec (m_id y) (m_id m)); [lia|]. split; intros _; lia. Qed.

Lemma add_ok last l m u : sorted l -> (forall y, In y l -> m_id y = m_id m -> cmp_new last y m = u) -> u = 1 \/ u = -1 ->
  exists l', add last l m = Some l' /\ sorted l' /\ (forall id, id <> m_id m -> only id l' = only id l) /\
    only (m_id m) l' = if u =? 1 then m :: only (m_id m) l else only (m_id m) l ++ [m].
Proof.
  intros S U Hu. unfold add, array_add. destruct (array_find_spec _ l (ready_new last m u l S U)) as [(p & x & s & E & L & Z0)|(p & s & E & L & Fp & Fs)].
  - exfalso. assert (M : m_id x = m_id m) by (unfold cmp_new in Z0; destruct (Z.ltb_spec (m_id m) (m_id x)); [lia|]; destruct (Z.ltb_spec (m_id x) (m_id m)); lia). specialize (U x). rewrite L in U. specialize (U ltac:(apply in_or_app; right; left; reflexivity) M). lia.
  - rewrite E. subst l. exists (p ++ m :: s). unfold item_insert, zlen. rewrite Nat2Z.id, firstn_app, skipn_app, Nat.sub_diag, firstn_all, skipn_all. cbn [firstn skipn app]. rewrite app_nil_r. split; [reflexivity|].
    apply sorted_app in S as (Sp & Ss & Sx). rewrite Forall_forall in Fp, Fs.
    split; [|split].
    + apply sorted_app. split; [exact Sp|]. split; [constructor; [exact Ss|]; apply Forall_forall; intros y I; exact (proj2 (cmp_id_sign last y m) (Fs y I))|]. apply Forall_forall. intros y I. constructor; [exact (proj1 (cmp_id_sign last y m) (Fp y I))|]. rewrite Forall_forall in Sx. exact (Sx y I).
    + intros id N. rewrite !filter_app. cbn [filter]. unfold same at 2. replace (m_id m =? id) with false by lia. reflexivity.
    + rewrite !filter_app. cbn [filter]. unfold same at 2. rewrite Z.eqb_refl. destruct Hu as [-> | ->]; cbn [Z.eqb].
      * rewrite (only_nil _ p); [reflexivity|]. intros y I K. specialize (Fp y I). rewrite (U y) in Fp; [lia|apply in_or_app; left; exact I|exact K].
      * rewrite (only_nil _ s); [rewrite app_nil_r; reflexivity|]. intros y I K. specialize (Fs y I). rewrite (U y) in Fs; [lia|apply in_or_app; right; exact I|exact K].
Qed.

(** The entries with one Id stand together. *)
Lemma together id l : sorted l -> exists p s, l = p ++ only id l ++ s /\ (forall y, In y p -> m_id y < id) /\ (forall y, In y s -> id < m_id y).
Proof.
  unfold sorted. induction 1 as [|x l S IH F]; [exists [], []; split; [reflexivity|split; intros y []]|]. destruct IH as (p & s & E & Hp & Hs). rewrite Forall_forall in F. cbn [filter]. unfold same at 1. destruct (Z.eqb_spec (m_id x) id) as [<-|N].
  - destruct p as [|z p]; [|exfalso; specialize (Hp z (or_introl eq_refl)); specialize (F z); rewrite E in F; specialize (F (or_introl eq_refl)); lia].
    exists [], s. cbn [app] in *. rewrite <- E. split; [reflexivity|split; assumption].
  - destruct (Z.lt_ge_cases (m_id x) id) as [G|G].
    + exists (x :: p), s. cbn [app]. rewrite <- E. split; [reflexivity|]. split; [intros y [<-|I]; [exact G|apply Hp, I]|exact Hs].
    + assert (O : only id l = []) by (apply only_nil; intros y I; specialize (F y I); lia). rewrite O. exists [], (x :: l). split; [reflexivity|]. split; [intros y []|]. intros y [<-|I]; [lia|]. specialize (F y I). lia.
Qed.
Lemma locate id s x r : (forall y, In y s -> id < m_id y) -> m_id x = id -> forall p g q, (forall y, In y p -> m_id y < id) -> q ++ x :: r = p ++ g ++ s -> exists a b, g = a ++ x :: b /\ q = p ++ a.
Proof.
  intros Hs M. induction p as [|z p IH]; intros g q Hp E; cbn [app] in E.
  - revert q E. induction g as [|h g IH]; intros q Q; [cbn [app] in Q; exfalso; specialize (Hs x); rewrite <- Q in Hs; specialize (Hs ltac:(apply in_or_app; right; left; reflexivity)); lia|].
    destruct q as [|k q]; cbn [app] in Q; injection Q as -> Q; [exists [], g; split; reflexivity|]. destruct (IH q Q) as (a & b & -> & ->). exists (h :: a), b. split; reflexivity.
  - destruct q as [|k q]; cbn [app] in E; [injection E as -> _; exfalso; specialize (Hp z (or_introl eq_refl)); lia|]. injection E as -> E.
    destruct (IH g q (fun y I => Hp y (or_intror I)) E) as (a & b & -> & ->). exists a, b. split; reflexivity.
Qed.
Lemma cmp_id_0 id x : cmp_id id x = 0 <-> m_id x = id.
Proof. unfold cmp_id. destruct (Z.ltb_spec id (m_id x)); [lia|]. destruct (Z.ltb_spec (m_id x) id); lia. Qed.
(** The search ends at one of them. *)
Lemma search id l : sorted l ->
  (only id l = [] /\ exists i, array_find (cmp_id id) l = Some (i, false)) \/
  (exists p a y b s, array_find (cmp_id id) l = Some (zlen (p ++ a), true) /\ only id l = a ++ y :: b /\ l = p ++ (a ++ y :: b) ++ s /\ (forall y, In y p -> m_id y < id) /\ (forall y, In y s -> id < m_id y)).
Proof.
  intros S. destruct (together id l S) as (p & s & E & Hp & Hs). destruct (array_find_spec _ l (ready_id id l S)) as [(q & x & r & A & L & Z0)|(q & r & A & L & Fq & Fr)].
  - right. apply cmp_id_0 in Z0. rewrite L in E at 1. destruct (locate id s x r Hs Z0 p _ q Hp E) as (a & b & G1 & ->). exists p, a, x, b, s. split; [exact A|]. split; [exact G1|]. rewrite <- G1. split; [rewrite L at 1; exact E|]. split; assumption.
  - left. split; [|exists (zlen q); exact A]. apply only_nil. intros y I K. apply cmp_id_0 in K. rewrite L in I. rewrite Forall_forall in Fq, Fr. apply in_app_or in I as [I|I]; [specialize (Fq y I)|specialize (Fr y I)]; lia.
Qed.

(** ** Building *)
Section Build.
Context (c : chain).
Definition grp (done : list meta) (id : Z) : list meta :=
  match find (same id) done with
  | None => []
  | Some m => if is_event m then only id done else if is_data_bit m then match bit_lookup c id with Some b => [m; b] | None => [] end else [m]
  end.
Definition good (ms : list meta) : Prop :=
  (forall x, In x ms -> is_bit x = false) /\ (forall x y, In x ms -> In y ms -> m_id x = m_id y -> is_event x = true -> is_event y = true) /\
  (forall x, In x ms -> is_data_bit x = true -> exists b, bit_lookup c (m_id x) = Some b).
Definition bi (done l : list meta) : Prop := sorted l /\ forall id, only id l = grp done id.

Lemma find_app {A} (g : A -> bool) a b : find g (a ++ b) = match find g a with Some x => Some x | None => find g b end.
Proof. induction a as [|x a IH]; [reflexivity|]. cbn [app find]. destruct (g x); [reflexivity|exact IH]. Qed.
Lemma find_none_only id l : find (same id) l = None -> only id l = [].
Proof. induction l as [|x l IH]; [reflexivity|]. cbn [find filter]. destruct (same id x); [discriminate|exact IH]. Qed.
Lemma bit_is id b : bit_lookup c id = Some b -> m_id b = id /\ is_bit b = true.
Proof. unfold bit_lookup. intros H. apply find_some in H as [_ H]. apply andb_prop in H as [H1 H2]. apply Z.eqb_eq in H1. split; assumption. Qed.
Lemma grp_other done m id : id <> m_id m -> grp (done ++ [m]) id = grp done id.
Proof. intros N. unfold grp. rewrite find_app. cbn [find]. unfold same at 2. replace (m_id m =? id) with false by lia. destruct (find (same id) done) as [x|]; [|reflexivity]. rewrite filter_app. cbn [filter]. unfold same at 2. replace (m_id m =? id) with false by lia. rewrite app_nil_r. reflexivity. Qed.

Lemma step_ok done l m : good (done ++ [m]) -> bi done l -> exists l', add_lookup c l m = Some l' /\ bi (done ++ [m]) l'.
Proof.
  intros (GB & GE & GD) (S & I). assert (Im : In m (done ++ [m])) by (apply in_or_app; right; left; reflexivity). pose proof (GB m Im) as Mb.
  unfold add_lookup. destruct (find (same (m_id m)) done) as [x|] eqn:Fx.
  - pose proof (find_some _ _ Fx) as [Ix Ex]. unfold same in Ex. apply Z.eqb_eq in Ex. assert (Ix' : In x (done ++ [m])) by (apply in_or_app; left; exact Ix).
    assert (NE : only (m_id m) l <> []).
    { rewrite I. unfold grp. rewrite Fx. destruct (is_event x); [intros N; assert (K : In x (only (m_id m) done)) by (apply only_in; split; assumption); rewrite N in K; destruct K|]. destruct (is_data_bit x) eqn:D; [|discriminate]. destruct (GD x Ix' D) as (b & B). rewrite Ex in B. rewrite B. discriminate. }
    destruct (search (m_id m) l S) as [(N & _)|(p & a & y & b & s & A & _)]; [contradiction|]. rewrite A. cbn [negb orb].
    destruct (is_event m) eqn:Em.
    + assert (Dm : is_data_bit m = false) by (unfold is_event, is_data_bit in *; destruct (m_kind m); try discriminate; reflexivity). rewrite Dm.
      assert (Xe : is_event x = true) by (apply (GE m x Im Ix'); [symmetry; exact Ex|exact Em]).
      assert (G : only (m_id m) l = only (m_id m) done) by (rewrite I; unfold grp; rewrite Fx, Xe; reflexivity).
      destruct (add_ok true l m (-1) S) as (l' & E & S' & O & O').
      * intros z Iz Ez. assert (K : In z (only (m_id m) l)) by (apply only_in; split; assumption). rewrite G in K. apply only_in in K as [K _]. unfold cmp_new. rewrite Ez, Z.ltb_irrefl. rewrite (GB z) by (apply in_or_app; left; exact K). rewrite Mb. reflexivity.
      * right. reflexivity.
      * exists l'. split; [exact E|]. split; [exact S'|]. intros id. destruct (Z.eq_dec id (m_id m)) as [->|N]; [|rewrite O, grp_other by exact N; apply I]. rewrite O'. cbn [Z.eqb]. rewrite G. unfold grp. rewrite find_app, Fx, Xe, filter_app. replace (only (m_id m) [m]) with [m] by (cbn [filter]; unfold same; rewrite Z.eqb_refl; reflexivity). reflexivity.
    + exists l. split; [reflexivity|]. split; [exact S|]. intros id. destruct (Z.eq_dec id (m_id m)) as [->|N]; [|rewrite grp_other by exact N; apply I]. rewrite I. unfold grp. rewrite find_app, Fx. destruct (is_event x) eqn:Xe; [|reflexivity]. rewrite (GE x m Ix' Im Ex Xe) in Em. discriminate.
  - assert (G : only (m_id m) l = []) by (rewrite I; unfold grp; rewrite Fx; reflexivity).
    destruct (search (m_id m) l S) as [(_ & i & A)|(p & a & y & b & s & A & B & _)]; [|rewrite G in B; destruct a; discriminate]. rewrite A. cbn [negb orb].
    assert (U : forall last z u, forall y, In y l -> m_id y = m_id m -> cmp_new last y z = u). { intros last z u y Iy Ey. exfalso. assert (K : In y (only (m_id m) l)) by (apply only_in; split; assumption). rewrite G in K. destruct K. }
    assert (D : forall id, id = m_id m -> grp (done ++ [m]) id = if is_event m then [m] else if is_data_bit m then match bit_lookup c id with Some b => [m; b] | None => [] end else [m]).
    { intros id ->. unfold grp. rewrite find_app, Fx. cbn [find]. unfold same at 1. rewrite Z.eqb_refl, filter_app, (find_none_only _ _ Fx). cbn [filter app]. unfold same at 1. rewrite Z.eqb_refl. reflexivity. }
    destruct (is_data_bit m) eqn:Dm.
    + destruct (GD m Im Dm) as (b & B). rewrite B. destruct (bit_is _ _ B) as [Bi Bb].
      destruct (add_ok false l b (-1) S) as (l1 & E1 & S1 & O1 & O1'); [intros z Iz Ez; apply U; [exact Iz|congruence]|right; reflexivity|]. rewrite E1. rewrite Bi in *. cbn [Z.eqb] in O1'. rewrite G in O1'. cbn [app] in O1'.
      destruct (add_ok true l1 m 1 S1) as (l2 & E2 & S2 & O2 & O2').
      * intros z Iz Ez. assert (K : In z (only (m_id m) l1)) by (apply only_in; split; assumption). rewrite O1' in K. destruct K as [<-|[]]. unfold cmp_new. rewrite Ez, Z.ltb_irrefl, Bb. reflexivity.
      * left. reflexivity.
      * exists l2. split; [exact E2|]. split; [exact S2|]. intros id. destruct (Z.eq_dec id (m_id m)) as [->|N]; [|rewrite O2, O1, grp_other by exact N; apply I]. rewrite O2'. cbn [Z.eqb Pos.eqb]. rewrite O1', (D _ eq_refl), B. destruct (is_event m) eqn:Em; [|reflexivity]. unfold is_event, is_data_bit in *. destruct (m_kind m); discriminate.
    + destruct (add_ok true l m (-1) S) as (l' & E & S' & O & O'); [intros z Iz Ez; apply U; assumption|right; reflexivity|].
      exists l'. split; [exact E|]. split; [exact S'|]. intros id. destruct (Z.eq_dec id (m_id m)) as [->|N]; [|rewrite O, grp_other by exact N; apply I]. rewrite O'. cbn [Z.eqb]. rewrite G, (D _ eq_refl). destruct (is_event m); reflexivity.
Qed.
Lemma build_ok : forall ms done l, good (done ++ ms) -> bi done l -> exists l', add_all c l ms = Some l' /\ bi (done ++ ms) l'.
Proof.
  induction ms as [|m ms IH]; intros done l G B; [exists l; rewrite app_nil_r; split; [reflexivity|exact B]|].
  replace (done ++ m :: ms) with ((done ++ [m]) ++ ms) in * by (rewrite <- app_assoc; reflexivity).
  assert (G1 : good (done ++ [m])). { destruct G as (G1 & G2 & G3). split; [|split]; intros; [apply G1|apply (G2 x y)|apply G3]; try (apply in_or_app; left); assumption. }
  destruct (step_ok done l m G1 B) as (l1 & E & B1). cbn [add_all]. rewrite E. apply IH; assumption.
Qed.
Lemma empty_ok : bi [] [].
Proof. split; [constructor|]. intros id. reflexivity. Qed.
End Build.

(** ** Finding *)
Lemma aget_app {A} (p : list A) x s : aget (p ++ x :: s) (zlen p) = Some x.
Proof. unfold aget, zlen. replace (Z.of_nat (length p) <? 0) with false by lia. rewrite Nat2Z.id, nth_error_app2, Nat.sub_diag by lia. reflexivity. Qed.
Lemma run_all id a s : Forall (fun m => m_id m = id) a -> (forall y, In y s -> id < m_id y) -> run_of id (a ++ s) = a.
Proof.
  intros Fa Hs. induction Fa as [|x a E _ IH]; cbn [app run_of]; [|rewrite E, Z.eqb_refl, IH; reflexivity]. destruct s as [|y s]; [reflexivity|]. cbn [run_of]. specialize (Hs y (or_introl eq_refl)). replace (m_id y =? id) with false by lia. reflexivity.
Qed.
Lemma back_all id p s : (forall y, In y p -> m_id y < id) -> forall a r, Forall (fun m => m_id m = id) a -> back (p ++ (a ++ r) ++ s) id (length (p ++ a)) = length p.
Proof.
  intros Hp a. induction a as [|x a IH] using rev_ind; intros r Fa.
  - rewrite app_nil_r. cbn [app]. destruct p as [|y p _] using rev_ind; [reflexivity|]. rewrite app_length. cbn [length]. replace (length p + 1)%nat with (S (length p)) by lia. cbn [back]. rewrite <- app_assoc. rewrite nth_error_app2, Nat.sub_diag by lia. cbn [nth_error app]. specialize (Hp y ltac:(apply in_or_app; right; left; reflexivity)). replace (m_id y =? id) with false by lia. reflexivity.
  - apply Forall_app in Fa as [Fa Fx]. inversion Fx as [|? ? Ex _]; subst. replace (length (p ++ a ++ [x])) with (S (length (p ++ a))) by (rewrite !app_length; cbn [length]; lia). cbn [back].
    replace (p ++ ((a ++ [x]) ++ r) ++ s) with ((p ++ a) ++ x :: (r ++ s)) by (rewrite <- !app_assoc; reflexivity). rewrite nth_error_app2, Nat.sub_diag by lia. cbn [nth_error]. rewrite Z.eqb_refl.
    replace ((p ++ a) ++ x :: r ++ s) with (p ++ (a ++ x :: r) ++ s) by (rewrite <- !app_assoc; reflexivity). apply IH. exact Fa.
Qed.
Lemma look_ok id l : sorted l ->
  (only id l = [] -> look l id = Some Nothing) /\
  (forall m, only id l = [m] -> is_event m = false -> is_bit m = false -> is_data_bit m = false -> look l id = Some (Entry m None)) /\
  (forall m b, only id l = [m; b] -> is_data_bit m = true -> is_bit b = true -> look l id = Some (Entry m (Some b))) /\
  (only id l <> [] -> Forall (fun m => is_event m = true) (only id l) -> look l id = Some (Events (only id l))).
Proof.
  intros S. unfold look. destruct (search id l S) as [(N & i & A)|(p & a & y & b & s & A & O & L & Hp & Hs)]; rewrite A.
  - split; [reflexivity|]. split; [intros m E; rewrite N in E; discriminate|]. split; [intros m b E; rewrite N in E; discriminate|]. intros E; contradiction.
  - assert (L1 : l = (p ++ a) ++ y :: (b ++ s)) by (rewrite L, <- !app_assoc; reflexivity). assert (Y : aget l (zlen (p ++ a)) = Some y) by (rewrite L1; apply aget_app). rewrite Y.
    split; [intros E; rewrite O in E; destruct a; discriminate|]. split; [|split].
    + intros m E Me Mb Md. rewrite O in E. destruct a as [|z a]; [|destruct a; discriminate]. injection E as -> ->. rewrite Me, Mb, Y, Md. reflexivity.
    + intros m b' E Md Bb. rewrite O in E. destruct a as [|z [|z2 a]]; [| |destruct a; discriminate].
      * injection E as -> ->. replace (is_event m) with false by (unfold is_event, is_data_bit in *; destruct (m_kind m); try discriminate; reflexivity). replace (is_bit m) with false by (unfold is_bit, is_data_bit in *; destruct (m_kind m); try discriminate; reflexivity). rewrite Y, Md. rewrite app_nil_r.
        replace (zlen p + 1) with (zlen (p ++ [m])) by (unfold zlen; rewrite app_length; cbn [length]; lia). replace l with ((p ++ [m]) ++ b' :: s) by (rewrite L, <- !app_assoc; reflexivity). rewrite aget_app. reflexivity.
      * injection E as -> -> ->. replace (is_event b') with false by (unfold is_event, is_bit in *; destruct (m_kind b'); try discriminate; reflexivity). rewrite Bb.
        replace (zlen (p ++ [m]) - 1) with (zlen p) by (unfold zlen; rewrite app_length; cbn [length]; lia). replace l with (p ++ m :: b' :: s) at 1 by (rewrite L, <- !app_assoc; reflexivity). rewrite aget_app, Md.
        replace (zlen p + 1) with (zlen (p ++ [m])) by (unfold zlen; rewrite app_length; cbn [length]; lia). rewrite Y. reflexivity.
    + intros _ F. assert (Fi : Forall (fun m => m_id m = id) (a ++ y :: b)) by (rewrite <- O; apply Forall_forall; intros z I; apply only_in in I; apply I).
      rewrite O in F |- *. assert (Ye : is_event y = true) by (rewrite Forall_forall in F; apply F; apply in_or_app; right; left; reflexivity). rewrite Ye. unfold zlen. rewrite Nat2Z.id.
      apply Forall_app in Fi as K. rewrite L. rewrite (back_all id p s Hp a (y :: b) (proj1 K)). rewrite skipn_app, skipn_all, Nat.sub_diag. cbn [skipn app]. rewrite (run_all id _ s Fi Hs). reflexivity.
Qed.
