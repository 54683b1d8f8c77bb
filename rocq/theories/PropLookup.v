(** C147: the tables of properties. *)
From Verif Require Import Base BaseProofs Arr Lookup LookupSpec LookupProofs.

Lemma sound_tail f ms c : sound f (ms :: c) -> sound f c.
Proof.
  intros (S1 & S2). split; [|intros ms' x r I; apply (S2 ms'); right; exact I]. intros x y Ix Iy. apply S1; cbn [concat]; apply in_or_app; right; assumption.
Qed.
Lemma table_ok f : no_bits f -> forall c, sound f c -> exists c' l, table f c = Some l /\ bi c' (filter f (concat c)) l /\ (forall ms ps, c = ms :: ps -> existsb f ms = true -> c' = c) /\
  (forall x, In x (filter f (concat c)) -> is_data_bit x = true -> exists b, bit_lookup c' (m_id x) = Some b).
Proof.
  intros NB. induction c as [|ms c IH]; intros S.
  - exists [], []. split; [reflexivity|]. split; [apply empty_ok|]. split; [discriminate|intros x []].
  - cbn [table]. destruct (existsb f ms) eqn:X.
    + assert (D : forall x, In x (filter f (concat (ms :: c))) -> is_data_bit x = true -> exists b, bit_lookup (ms :: c) (m_id x) = Some b).
      { intros x I Dx. apply filter_In in I as [I _]. apply in_concat in I as (l & Il & Ix). unfold is_data_bit in Dx. destruct (m_kind x) as [| | | | |bt r|] eqn:K; try discriminate. destruct bt; [|discriminate].
        destruct S as (_ & S2). destruct (S2 l x r Il Ix K) as (b & Ib & Kb & Eb). unfold bit_lookup. destruct (find _ _) as [z|] eqn:F; [exists z; reflexivity|]. exfalso. assert (Jb : In b (concat (ms :: c))) by (apply in_concat; exists l; split; assumption). pose proof (find_none _ _ F b Jb) as N. cbv beta in N. unfold is_bit in N. rewrite Eb, Z.eqb_refl, Kb in N. discriminate. }
      assert (G : good (ms :: c) ([] ++ filter f (concat (ms :: c)))).
      { cbn [app]. split; [|split; [|exact D]].
        - intros x I. apply filter_In in I as [_ I]. unfold is_bit. destruct (m_kind x) eqn:K; try reflexivity. rewrite (NB x K) in I. discriminate.
        - intros x y Ix Iy E Ex. apply filter_In in Ix as [Ix Fx], Iy as [Iy Fy]. destruct S as (S1 & _). unfold is_event in *. destruct (m_kind x) eqn:K; try discriminate. rewrite (S1 x y Ix Iy Fx Fy E K). reflexivity. }
      destruct (build_ok (ms :: c) _ [] [] G (empty_ok _)) as (l & E & B). exists (ms :: c), l. split; [exact E|]. split; [exact B|]. split; [reflexivity|exact D].
    + destruct (IH (sound_tail _ _ _ S)) as (c' & l & E & B & _ & D). exists c', l. split; [exact E|].
      assert (Z : filter f (concat (ms :: c)) = filter f (concat c)). { cbn [concat]. rewrite filter_app. replace (filter f ms) with (@nil meta); [reflexivity|]. symmetry. clear -X. induction ms as [|x ms IH]; [reflexivity|]. cbn [existsb filter] in *. apply orb_false_elim in X as [-> X]. exact (IH X). }
      rewrite Z. split; [exact B|]. split; [intros ms' ps Q X'; injection Q as -> _; congruence|exact D].
Qed.
Lemma first_find f id ms m : first_of f id ms m -> find (same id) (filter f ms) = Some m.
Proof.
  intros (a & b & -> & Fm & Em & N). rewrite filter_app. cbn [filter]. rewrite Fm. rewrite find_app. replace (find (same id) (filter f a)) with (@None meta).
  - cbn [find]. unfold same. rewrite Em, Z.eqb_refl. reflexivity.
  - symmetry. induction N as [|x a Nx _ IH]; [reflexivity|]. cbn [filter]. destruct (f x) eqn:Fx; [|exact IH]. cbn [find]. unfold same at 1. destruct (Z.eqb_spec (m_id x) id) as [e|e]; [exfalso; exact (Nx (conj eq_refl e))|exact IH].
Qed.

(** For every class and every property the first entry is found, from the class itself on to what it derives from: data with their
    bit, and all events, in this order; or nothing when there is none.  No entry outside of the table is used. *)
Theorem C147_found : forall f c id m, no_bits f -> sound f c -> first_of f id (concat c) m -> m_kind m <> KEvent ->
  exists bit, find_property f c id = Some (Entry m bit) /\
    ((forall r, m_kind m <> KData true r) -> bit = None) /\
    (forall r, m_kind m = KData true r -> exists b, bit = Some b /\ m_kind b = KBit /\ m_id b = id).
Proof.
  intros f c id m NB S Fi Ne. destruct (table_ok f NB c S) as (c' & l & E & (So & O) & _ & D). unfold find_property. rewrite E. specialize (O id). pose proof (first_find _ _ _ _ Fi) as Ff. unfold grp in O. rewrite Ff in O.
  destruct Fi as (a & b & Ec & Fm & Em & _). replace (is_event m) with false in O by (unfold is_event; destruct (m_kind m); try reflexivity; contradiction).
  assert (Im : In m (filter f (concat c))) by (apply filter_In; split; [rewrite Ec; apply in_or_app; right; left; reflexivity|exact Fm]).
  destruct (look_ok id l So) as (_ & L1 & L2 & _). destruct (is_data_bit m) eqn:Dm.
  - destruct (D m Im Dm) as (bt & B). rewrite Em in B. rewrite B in O. destruct (bit_is _ _ _ B) as [Bi Bb]. exists (Some bt). split; [apply L2; assumption|]. split.
    + intros N. exfalso. unfold is_data_bit in Dm. destruct (m_kind m) as [| | | | |[|] r|] eqn:K; try discriminate. exact (N r eq_refl).
    + intros r _. exists bt. split; [reflexivity|]. split; [unfold is_bit in Bb; destruct (m_kind bt); try discriminate; reflexivity|exact Bi].
  - exists None. split; [|split; [reflexivity|intros r K; unfold is_data_bit in Dm; rewrite K in Dm; discriminate]]. apply L1; [exact O| | |exact Dm].
    + unfold is_event. destruct (m_kind m); try reflexivity. contradiction.
    + unfold is_bit. destruct (m_kind m) eqn:K; try reflexivity. rewrite (NB m K) in Fm. discriminate.
Qed.
Theorem C147_events : forall f c id m, no_bits f -> sound f c -> first_of f id (concat c) m -> m_kind m = KEvent ->
  find_property f c id = Some (Events (filter (fun x => f x && (m_id x =? id)) (concat c))).
Proof.
  intros f c id m NB S Fi Ke. destruct (table_ok f NB c S) as (c' & l & E & (So & O) & _ & _). unfold find_property. rewrite E. specialize (O id). pose proof (first_find _ _ _ _ Fi) as Ff. unfold grp in O. rewrite Ff in O.
  assert (Em : is_event m = true) by (unfold is_event; rewrite Ke; reflexivity). rewrite Em in O. destruct Fi as (a & b & Ec & Fm & Ei & _).
  destruct (look_ok id l So) as (_ & _ & _ & L). rewrite L.
  - rewrite O. do 2 f_equal. clear. induction (concat c) as [|x l IH]; [reflexivity|]. cbn [filter]. destruct (f x); cbn [andb filter]; [|exact IH]. unfold same at 1. destruct (m_id x =? id); rewrite IH; reflexivity.
  - rewrite O. intros N. apply find_some in Ff as [I1 I2]. assert (K : In m (filter (same id) (filter f (concat c)))) by (apply filter_In; split; assumption). rewrite N in K. destruct K.
  - rewrite O. apply Forall_forall. intros x I. apply only_in in I as [I Ex]. apply filter_In in I as [I Fx]. unfold is_event. destruct S as (S1 & _). rewrite (S1 m x); try assumption; [reflexivity| |congruence]. rewrite Ec. apply in_or_app. right. left. reflexivity.
Qed.
Theorem C147_none : forall f c id, no_bits f -> sound f c -> none_of f id (concat c) -> find_property f c id = Some Nothing.
Proof.
  intros f c id NB S N. destruct (table_ok f NB c S) as (c' & l & E & (So & O) & _ & _). unfold find_property. rewrite E. apply (look_ok id l So). rewrite O. unfold grp. replace (find (same id) (filter f (concat c))) with (@None meta); [reflexivity|]. symmetry.
  revert N. generalize (concat c) as ms. intros ms N. induction N as [|x ms Nx _ IH]; [reflexivity|]. cbn [filter]. destruct (f x) eqn:Fx; [|exact IH]. cbn [find]. unfold same at 1. destruct (Z.eqb_spec (m_id x) id) as [e|e]; [exfalso; exact (Nx (conj eq_refl e))|exact IH].
Qed.
(** The bit is the first one, when the class itself describes something of the kind. *)
Theorem C147_bit : forall f ms ps id m r, no_bits f -> sound f (ms :: ps) -> existsb f ms = true -> first_of f id (concat (ms :: ps)) m -> m_kind m = KData true r ->
  exists b, find_property f (ms :: ps) id = Some (Entry m (Some b)) /\ first_of is_bit id (concat (ms :: ps)) b.
Proof.
  intros f ms ps id m r NB S X Fi K. destruct (table_ok f NB _ S) as (c' & l & E & (So & O) & Q & D). rewrite (Q ms ps eq_refl X) in *. unfold find_property. rewrite E. specialize (O id). pose proof (first_find _ _ _ _ Fi) as Ff. unfold grp in O. rewrite Ff in O.
  assert (Em : is_event m = false) by (unfold is_event; rewrite K; reflexivity). assert (Dm : is_data_bit m = true) by (unfold is_data_bit; rewrite K; reflexivity). rewrite Em, Dm in O.
  apply find_some in Ff as [I1 I2]. destruct (D m I1 Dm) as (b & B). unfold same in I2. apply Z.eqb_eq in I2. rewrite I2 in B. rewrite B in O. destruct (bit_is _ _ _ B) as [Bi Bb].
  exists b. split; [apply (look_ok id l So); assumption|]. clear - B Bi Bb. unfold bit_lookup in B. revert B. generalize (concat (ms :: ps)) as l. induction l as [|x l IH]; [discriminate|]. cbn [find]. destruct ((m_id x =? id) && is_bit x) eqn:T.
  - intros H. injection H as ->. exists [], l. split; [reflexivity|]. split; [exact Bb|]. split; [exact Bi|constructor].
  - intros H. destruct (IH H) as (a & t & -> & J1 & J2 & J3). exists (x :: a), t. split; [reflexivity|]. split; [exact J1|]. split; [exact J2|]. constructor; [|exact J3]. intros (U & V). rewrite U, V, Z.eqb_refl in T. discriminate.
Qed.
(** What is found to get: functions to get, and data.  To set (and to unset): functions to set (unset), and data that are not read-only; read-only data are never found. *)
Theorem C147_kinds : no_bits for_get /\ no_bits for_set /\ no_bits for_unset /\
  (forall m, for_get m = true <-> m_kind m = KGet \/ exists b r, m_kind m = KData b r) /\
  (forall m, for_set m = true <-> m_kind m = KSet \/ m_kind m = KEvent \/ exists b, m_kind m = KData b false) /\
  (forall m, for_unset m = true <-> m_kind m = KUnSet \/ m_kind m = KEvent \/ exists b, m_kind m = KData b false).
Proof.
  unfold no_bits, for_get, for_set, for_unset. split; [intros m ->; reflexivity|]. split; [intros m ->; reflexivity|]. split; [intros m ->; reflexivity|].
  repeat split; intros H; destruct (m_kind m) as [| | | | |b r|]; try destruct r; try discriminate; try reflexivity;
    repeat match goal with H : _ \/ _ |- _ => destruct H | H : ex _ |- _ => destruct H end; try discriminate; eauto.
Qed.
(** But the bit of a derived class that describes nothing else of the kind is not used; that it has another property changes this. *)
Theorem C147_bit_refuted :
  let base := [mkMeta (KData true false) 7 40; mkMeta KBit 7 1] in
  let derived := [mkMeta KBit 7 2] in
  let other := mkMeta (KData false false) 9 44 in
  sound for_get [derived; base] /\ first_of is_bit 7 (concat [derived; base]) (mkMeta KBit 7 2) /\
  find_property for_get [derived; base] 7 = Some (Entry (mkMeta (KData true false) 7 40) (Some (mkMeta KBit 7 1))) /\
  find_property for_get [other :: derived; base] 7 = Some (Entry (mkMeta (KData true false) 7 40) (Some (mkMeta KBit 7 2))).
Proof.
  cbv zeta. split; [|split; [exists [], [mkMeta (KData true false) 7 40; mkMeta KBit 7 1]; repeat split; constructor|split; vm_compute; reflexivity]]. split.
  - intros x y Ix Iy Fx Fy _ K. unfold for_get in Fx. rewrite K in Fx. discriminate.
  - intros ms x r [<-|[<-|[]]] Ix K.
    + destruct Ix as [<-|[]]; discriminate.
    + exists (mkMeta KBit 7 1). split; [right; left; reflexivity|]. split; [reflexivity|]. destruct Ix as [<-|[<-|[]]]; reflexivity.
Qed.
(** And read-only data of a derived class do not hide data that can be set: what is set is not what is got. *)
Theorem C147_readonly_refuted :
  let base := [mkMeta (KData false false) 5 32] in
  let derived := [mkMeta (KData false true) 5 48] in
  find_property for_get [derived; base] 5 = Some (Entry (mkMeta (KData false true) 5 48) None) /\
  find_property for_set [derived; base] 5 = Some (Entry (mkMeta (KData false false) 5 32) None).
Proof. split; vm_compute; reflexivity. Qed.
(** A class over another: its function hides data, its events come first, and the rest is inherited. *)
Example C147_ex :
  let base := [mkMeta (KData false false) 5 32; mkMeta (KData true true) 7 40; mkMeta KBit 7 1; mkMeta KEvent 3 100] in
  let derived := [mkMeta KSet 5 200; mkMeta KEvent 3 201] in
  sound for_set [derived; base] /\ first_of for_set 5 (concat [derived; base]) (mkMeta KSet 5 200) /\
  find_property for_set [derived; base] 5 = Some (Entry (mkMeta KSet 5 200) None) /\
  find_property for_set [derived; base] 3 = Some (Events [mkMeta KEvent 3 201; mkMeta KEvent 3 100]) /\
  find_property for_set [derived; base] 7 = Some Nothing /\
  find_property for_get [derived; base] 5 = Some (Entry (mkMeta (KData false false) 5 32) None) /\
  find_property for_get [derived; base] 7 = Some (Entry (mkMeta (KData true true) 7 40) (Some (mkMeta KBit 7 1))).
Proof.
  cbv zeta. split; [|split; [eexists []; eexists; repeat split; constructor|repeat split; vm_compute; reflexivity]]. split.
  - intros x y Ix Iy Fx Fy E K. cbn in Ix, Iy. intuition subst; try discriminate; reflexivity.
  - intros ms x r [<-|[<-|[]]] Ix K; cbn in Ix.
    + intuition subst; discriminate.
    + exists (mkMeta KBit 7 1). split; [right; right; left; reflexivity|]. split; [reflexivity|]. intuition subst; try discriminate; reflexivity.
Qed.
Print Assumptions C147_found.
Print Assumptions C147_events.
Print Assumptions C147_none.
Print Assumptions C147_bit.
Print Assumptions C147_kinds.
Print Assumptions C147_bit_refuted.
Print Assumptions C147_readonly_refuted.
