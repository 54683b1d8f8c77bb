From Verif Require Import Base BaseProofs Arr ArrSpec ArrProofs ArrProofs2 ClassesProofs Tree NodeData Props PropsSpec PropsProofs.
From Coq Require Import Sorted.

Lemma land1 fl : (Z.land fl 1 =? 0) = negb (Z.testbit fl 0).
Proof. change 1 with (Z.ones 1). rewrite Z.land_ones by lia. rewrite <- Z.bit0_mod. change (2 ^ 1) with 2. rewrite Z.bit0_mod. rewrite Z.bit0_odd, Zmod_odd. destruct (Z.odd fl); reflexivity. Qed.
Lemma wanted_iff w m : wanted w m = true <-> takes_part w m.
Proof.
  destruct m as [f|f|f|f|f|ty ofs fl u]; destruct w; cbn [wanted takes_part]; unfold DFLAG_RDONLY; rewrite ?land1.
  all: try (destruct (Z.testbit fl 0); cbn [negb]).
  all: split; intros Hx; try discriminate Hx; try contradiction; try reflexivity; try (left; reflexivity); try (right; reflexivity); try discriminate.
  all: try (destruct Hx; discriminate). all: exfalso; apply Hx; reflexivity.
Qed.
Lemma cand_iff w id e : cand w id e = true <-> about w id e.
Proof. unfold cand, about, isid. rewrite andb_true_iff, wanted_iff. split; intros [A B]; split; auto; lia. Qed.
Lemma cand_not w id e : cand w id e = false <-> ~ about w id e.
Proof. rewrite <- cand_iff. destruct (cand w id e); split; intros; auto; try discriminate. contradiction H; reflexivity. Qed.

Lemma build_suffix w c : exists pre c', c = pre ++ c' /\ (forall l e, In l pre -> In e l -> wanted w (e_meta e) = false) /\ build w c = add_all w c' [] (concat c').
Proof.
  induction c as [|l c IH]; cbn [build].
  - exists [], []. split; [reflexivity|]. split; [intros ? ? []|reflexivity].
  - destruct (existsb (fun e => wanted w (e_meta e)) l) eqn:X.
    + exists [], (l :: c). split; [reflexivity|]. split; [intros ? ? []|reflexivity].
    + destruct IH as (pre & c' & -> & H1 & ->). exists (l :: pre), c'. split; [reflexivity|]. split; [|reflexivity].
      intros l0 e [<-|Hl] He; [|exact (H1 l0 e Hl He)]. destruct (wanted w (e_meta e)) eqn:W; [|reflexivity]. rewrite <- X. symmetry. apply existsb_exists. exists e. auto.
Qed.

Lemma bit_in_near id l : match bit_in id l with
  | Some b => exists p s, l = p ++ b :: s /\ bit_of id b /\ Forall (fun x => ~ bit_of id x) p
  | None => Forall (fun x => ~ bit_of id x) l end.
Proof.
  assert (K : forall e, bit_of id e <-> (e_id e =? id) && is_bit (e_meta e) = true).
  { intros e. unfold bit_of. rewrite andb_true_iff. split.
    - intros [A [m B]]. rewrite B. split; [lia|reflexivity].
    - intros [A B]. split; [lia|]. destruct (e_meta e); try discriminate. eauto. }
  induction l as [|e l IH]; cbn [bit_in]; [constructor|]. destruct ((e_id e =? id) && is_bit (e_meta e)) eqn:X.
  - exists [], l. split; [reflexivity|]. split; [apply K; exact X|constructor].
  - assert (N : ~ bit_of id e) by (rewrite K, X; discriminate). destruct (bit_in id l) as [b|].
    + destruct IH as (p & s & -> & H1 & H2). exists (e :: p), s. split; [reflexivity|]. split; [exact H1|]. constructor; assumption.
    + constructor; assumption.
Qed.
Lemma bit_lookup_near id c : match bit_lookup id c with Some b => nearest (bit_of id) c b | None => Forall (fun x => ~ bit_of id x) (concat c) end.
Proof.
  induction c as [|l c IH]; cbn [bit_lookup concat]; [constructor|]. pose proof (bit_in_near id l) as Q. destruct (bit_in id l) as [b|].
  - destruct Q as (p & s & -> & H1 & H2). exists p, (s ++ concat c). cbn [concat]. rewrite <- app_assoc. split; [reflexivity|]. auto.
  - destruct (bit_lookup id c) as [b|].
    + destruct IH as (p & s & E & H1 & H2). exists (l ++ p), s. cbn [concat]. rewrite E, <- app_assoc. split; [reflexivity|]. split; [exact H1|]. apply Forall_app. auto.
    + apply Forall_app. auto.
Qed.

Lemma nearest_pre P pre c e : Forall (fun x => ~ P x) (concat pre) -> nearest P c e -> nearest P (pre ++ c) e.
Proof. intros H (p & s & E & H1 & H2). exists (concat pre ++ p), s. rewrite concat_app, E, <- app_assoc. split; [reflexivity|]. split; [exact H1|]. apply Forall_app. auto. Qed.

Lemma filter_head {A} (f : A -> bool) l e g : filter f l = e :: g -> exists p s, l = p ++ e :: s /\ f e = true /\ Forall (fun x => f x = false) p.
Proof.
  induction l as [|a l IH]; cbn [filter]; [discriminate|]. destruct (f a) eqn:X.
  - intros [= -> _]. exists [], l. auto.
  - intros H. destruct (IH H) as (p & s & -> & H1 & H2). exists (a :: p), s. auto.
Qed.

Lemma handlers_filter w id l : w <> WGet -> handlers id l = flat_map ev_fun (filter (cand w id) l).
Proof.
  intros HW. induction l as [|[i m] l IH]; [reflexivity|]. cbn [filter]. unfold cand at 1, isid at 1. cbn [e_id e_meta].
  destruct m as [f|f|f|f|f|ty ofs fl u]; cbn [handlers]; try (destruct ((i =? id) && _); cbn [flat_map]; [unfold ev_fun at 1; cbn [e_meta app]|]; exact IH).
  destruct (Z.eq_dec i id) as [->|N].
  - rewrite Z.eqb_refl. destruct w; [contradiction| |]; cbn [wanted andb flat_map]; unfold ev_fun at 1; cbn [e_meta app]; f_equal; exact IH.
  - replace (i =? id) with false by lia. cbn [andb]. exact IH.
Qed.

Lemma in_concat_split {A} (c : list (list A)) x : In x (concat c) -> exists p l s, c = p ++ l :: s /\ In x l.
Proof.
  induction c as [|l c IH]; cbn [concat]; [intros []|]. intros H. apply in_app_iff in H. destruct H as [H|H].
  - exists [], l, c. auto.
  - destruct (IH H) as (p & l' & s & -> & Q). exists (l :: p), l', s. auto.
Qed.

Lemma property_ok w c id : tidy w c -> exists a, property w c id = Ok a /\ resolved w c id a.
Proof.
  intros (HA & HB & HP). destruct (build_suffix w c) as (pre & c' & E & Hpre & Eb). unfold property. rewrite Eb. set (full := concat c') in *.
  assert (EC : concat c = concat pre ++ full) by (rewrite E; apply concat_app).
  assert (Hin : forall x, In x full -> In x (concat c)) by (intros x Hx; rewrite EC; apply in_or_app; right; exact Hx).
  assert (HA' : forall x y, In x full -> In y full -> e_id x = e_id y -> wanted w (e_meta x) = true -> wanted w (e_meta y) = true -> is_event (e_meta x) = is_event (e_meta y)).
  { intros x y Hx Hy I Wx Wy. apply wanted_iff in Wx, Wy. destruct (is_event (e_meta x)) eqn:X.
    - destruct (e_meta x) as [f|f|f|f|f|? ? ? ?] eqn:Ex; try discriminate X. destruct (HA x y f) as [g ->]; auto. rewrite Ex. exact Wx.
    - destruct (is_event (e_meta y)) eqn:Y; [|reflexivity]. destruct (e_meta y) as [f|f|f|f|f|? ? ? ?] eqn:Ey; try discriminate Y.
      destruct (HA y x f) as [g Eg]; auto; [rewrite Ey; exact Wy|]. rewrite Eg in X. discriminate. }
  assert (HB' : forall x, In x full -> needs_bit (e_meta x) = true -> bit_lookup (e_id x) c' <> None).
  { intros x Hx NX N. destruct (e_meta x) as [f|f|f|f|f|ty ofs fl u] eqn:Ex; try discriminate NX. cbn [needs_bit] in NX. unfold T_BOOL_BIT in NX. assert (ty = 24) as -> by lia.
    destruct (in_concat_split c' x Hx) as (p & l & s & Ec' & Hl). destruct (HB (pre ++ p) l s x ofs fl u) as (b & Hb & Bb); auto; [rewrite E, Ec', app_assoc; reflexivity|].
    pose proof (bit_lookup_near (e_id x) c') as Q. rewrite N in Q. rewrite Forall_forall in Q. apply (Q b); [|exact Bb]. rewrite Ec', concat_app. apply in_or_app. right. exact Hb. }
  destruct (add_all_ok w c' full HA' HB' full [] []) as (l & -> & HS & HF); [reflexivity|split; [constructor|reflexivity]|]. cbn [opt_res bind].
  assert (Npre : Forall (fun x => ~ about w id x) (concat pre)).
  { apply Forall_forall. intros x Hx. apply in_concat in Hx. destruct Hx as (l0 & Hl & Hx). pose proof (Hpre l0 x Hl Hx) as W. intros [_ Q]. apply wanted_iff in Q. congruence. }
  assert (Fpre : filter (cand w id) (concat pre) = []) by (apply filter_none; intros x Hx; rewrite Forall_forall in Npre; apply cand_not; exact (Npre x Hx)).
  assert (Bpre : Forall (fun x => ~ bit_of id x) (concat pre)).
  { apply Forall_forall. intros x Hx. apply in_concat in Hx. destruct Hx as (l0 & Hl & Hx). intros [_ [m Q]]. destruct (HP l0 x m) as (e & He & We); [rewrite E; apply in_or_app; left; exact Hl|exact Hx|exact Q|].
    apply wanted_iff in We. rewrite (Hpre l0 e Hl He) in We. discriminate. }
  pose proof (HF id) as Fid. destruct (filter (cand w id) full) as [|e g] eqn:G.
  - cbn [shape] in Fid. exists ANone. split; [rewrite (resolve_ok w l id HS) by (rewrite Fid; constructor); rewrite Fid; reflexivity|].
    apply R_none. rewrite EC. apply Forall_app. split; [exact Npre|]. apply Forall_forall. intros x Hx. apply cand_not. exact (filter_nil_in _ _ x G Hx).
  - destruct (filter_head _ _ _ _ G) as (p & s & Ef & Ce & Hp).
    assert (N : nearest (about w id) c e).
    { rewrite E. apply nearest_pre; [exact Npre|]. exists p, s. split; [exact Ef|]. split; [apply cand_iff; exact Ce|]. eapply Forall_impl; [|exact Hp]. intros x. apply cand_not. }
    assert (He : In e full) by (rewrite Ef; apply in_elt). unfold cand in Ce. apply andb_true_iff in Ce. destruct Ce as [Ie We]. unfold isid in Ie.
    cbn [shape] in Fid. destruct (is_event (e_meta e)) eqn:V.
    + assert (NW : w <> WGet) by (intros ->; destruct (e_meta e); try discriminate V; discriminate We).
      assert (OG : okgroup w id (e :: g)).
      { apply og_ev; [exact NW|]. rewrite <- G. apply Forall_forall. intros x Hx. apply filter_In in Hx. destruct Hx as [Hx Cx]. unfold cand in Cx. apply andb_true_iff in Cx. destruct Cx as [Ix Wx]. unfold isid in Ix.
        split; [lia|]. rewrite <- V. apply HA'; auto; lia. }
      rewrite (resolve_ok w l id HS) by (rewrite Fid; exact OG). rewrite Fid. eexists. split; [reflexivity|].
      destruct (e_meta e) as [f|f|f|f|f|? ? ? ?] eqn:Em; try discriminate V. cbn [act_of]. rewrite Em.
      replace (flat_map ev_fun (e :: g)) with (handlers id (concat c)) by (rewrite (handlers_filter w id (concat c) NW), EC, filter_app, Fpre, G; reflexivity).
      apply (R_events w c id e f N Em).
    + destruct (needs_bit (e_meta e)) eqn:NB.
      * destruct (e_meta e) as [f|f|f|f|f|ty ofs fl u] eqn:Em; try discriminate NB. pose proof NB as NB'. cbn [needs_bit] in NB. unfold T_BOOL_BIT in NB. assert (ty = 24) as -> by lia.
        pose proof (bit_lookup_near id c') as Q. pose proof (HB' e He) as B0. rewrite Em in B0. specialize (B0 NB'). replace (e_id e) with id in B0 by lia.
        destruct (bit_lookup id c') as [b|] eqn:EB; [|contradiction]. destruct (bit_lookup_ok _ _ _ EB) as [Ib Bb].
        rewrite (resolve_ok w l id HS) by (rewrite Fid; apply og_bit; [lia|rewrite Em; exact We|rewrite Em; exact NB'|exact Ib|exact Bb]). rewrite Fid. eexists. split; [reflexivity|].
        cbn [act_of]. rewrite Em. destruct (e_meta b) as [f|f|f|f|m|? ? ? ?] eqn:Ebm; try discriminate Bb.
        apply (R_bit w c id e ofs fl u b m N Em); [|exact Ebm]. rewrite E. apply nearest_pre; assumption.
      * rewrite (resolve_ok w l id HS) by (rewrite Fid; apply og_one; [lia|exact We|exact V|exact NB]). rewrite Fid. eexists. split; [reflexivity|]. cbn [act_of].
        destruct (e_meta e) as [f|f|f|f|f|ty ofs fl u] eqn:Em; try discriminate V.
        -- apply (R_call w c id e f N). rewrite Em. left. reflexivity.
        -- apply (R_call w c id e f N). rewrite Em. right. left. reflexivity.
        -- apply (R_call w c id e f N). rewrite Em. right. right. left. reflexivity.
        -- destruct w; discriminate We.
        -- cbn [needs_bit] in NB. unfold T_BOOL_BIT in NB. apply (R_data w c id e ty ofs fl u N Em). lia.
Qed.

(** Only one declaration is the nearest. *)
Lemma nearest_one P c a b : nearest P c a -> nearest P c b -> a = b.
Proof.
  intros (p & s & E & Ha & Hp) (p' & s' & E' & Hb & Hp'). rewrite E in E'. clear E. revert p' s' E' Hp'. induction p as [|x p IH]; intros p' s' E' Hp'.
  - destruct p' as [|y p']; [injection E' as -> _; reflexivity|]. injection E' as -> _. apply Forall_cons_iff in Hp'. destruct Hp' as [Hp' _]. contradiction.
  - apply Forall_cons_iff in Hp. destruct Hp as [Hx Hp]. destruct p' as [|y p']; [injection E' as -> _; contradiction|]. injection E' as _ E'. apply Forall_cons_iff in Hp'. destruct Hp' as [_ Hp']. exact (IH Hp p' s' E' Hp').
Qed.
Lemma nearest_in P c a : nearest P c a -> In a (concat c) /\ P a.
Proof. intros (p & s & -> & H & _). split; [apply in_elt|exact H]. Qed.
Lemma resolved_one w c id a b : resolved w c id a -> resolved w c id b -> a = b.
Proof.
  intros Ha Hb.
  destruct Ha as [H|e f N I|e f N I|e ty ofs fl u N I T|e ofs fl u bb m N I Nb Ib].
  { destruct Hb as [H'|e f N I|e f N I|e ty ofs fl u N I T|e ofs fl u bb m N I Nb Ib]; [reflexivity|..]; exfalso; apply nearest_in in N; destruct N as [N1 N2]; rewrite Forall_forall in H; exact (H e N1 N2). }
  all: destruct Hb as [H'|e' f' N' I'|e' f' N' I'|e' ty' ofs' fl' u' N' I' T'|e' ofs' fl' u' bb' m' N' I' Nb' Ib'];
    [exfalso; apply nearest_in in N; destruct N as [N1 N2]; rewrite Forall_forall in H'; exact (H' e N1 N2)|..];
    pose proof (nearest_one _ _ _ _ N N') as <-; cbn [In] in *; try reflexivity.
  all: repeat match goal with H : _ \/ _ |- _ => destruct H | H : False |- _ => destruct H end; try congruence.
  pose proof (nearest_one _ _ _ _ Nb Nb') as <-. congruence.
Qed.
