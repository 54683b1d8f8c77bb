(** Facts about the Matroska schema. *)
From Verif Require Import Base BaseProofs FinderSpec Vint EbmlId EbmlIdSpec Ebml Tree TreeRead TreeSpec TreeProofs Create CreateSpec CreateProofs MkSchema MkSpec.

Lemma mk_len : zlen mk_list = 270.
Proof. reflexivity. Qed.
Lemma mk_cases c : inside c = true \/ mk c = mk_none.
Proof.
  unfold inside, mk. destruct (Z.ltb_spec c 0); [right; reflexivity|]. destruct (Z.ltb_spec c 270); [left; lia|right].
  apply nth_overflow. pose proof mk_len. unfold zlen in *. lia.
Qed.
(** A test passed by every context. *)
Lemma mk_all (P : Z -> ctx -> bool) : forallb (fun n => P (Z.of_nat n) (mk (Z.of_nat n))) (seq 0 270) = true -> forall c, inside c = true -> P c (mk c) = true.
Proof.
  intros H c Hc. rewrite forallb_forall in H. unfold inside in Hc. specialize (H (Z.to_nat c)). rewrite Z2Nat.id in H by lia. apply H. apply in_seq. lia.
Qed.
Lemma mk_none_no c : mk c = mk_none -> c_sem (mk c) = None /\ c_class (mk c) = KDummy /\ c_id (mk c) = 0.
Proof. intros ->. repeat split. Qed.

(** Different contexts have different IDs. *)
Fixpoint distinct (l : list Z) : bool := match l with [] => true | x :: l => negb (existsb (Z.eqb x) l) && distinct l end.
Lemma distinct_ok l : distinct l = true -> NoDup l.
Proof.
  induction l as [|x l IH]; cbn [distinct]; [constructor|]. intros H. apply andb_true_iff in H. destruct H as [H1 H2]. constructor; [|auto].
  intros Hi. apply negb_true_iff in H1. rewrite <- not_true_iff_false in H1. apply H1. apply existsb_exists. exists x. split; [exact Hi|apply Z.eqb_refl].
Qed.
Lemma ids_nodup : NoDup (map c_id mk_list).
Proof. apply distinct_ok. vm_compute. reflexivity. Qed.
Lemma id_inj a b : inside a = true -> inside b = true -> c_id (mk a) = c_id (mk b) -> a = b.
Proof.
  unfold inside, mk. intros Ha Hb. replace (a <? 0) with false by lia. replace (b <? 0) with false by lia. rewrite <- !(map_nth c_id). intros H.
  pose proof ids_nodup as N. rewrite (NoDup_nth _ (c_id mk_none)) in N. apply Z2Nat.inj; try lia.
  pose proof mk_len as L. unfold zlen in L. apply N; [rewrite map_length; lia|rewrite map_length; lia|exact H].
Qed.
Definition id_lenb (id n : Z) : bool := (2 ^ (7 * n) <=? id) && (id <? 2 ^ (7 * n + 1)).
Lemma ids_valid c : inside c = true -> c <> cStream -> valid_id (c_id (mk c)).
Proof.
  intros Hc Hn. pose proof (mk_all (fun c x => (c =? cStream) || id_lenb (c_id x) 1 || id_lenb (c_id x) 2 || id_lenb (c_id x) 3 || id_lenb (c_id x) 4) ltac:(vm_compute; reflexivity) c Hc) as H. cbn beta in H.
  apply Z.eqb_neq in Hn. rewrite Hn in H. cbn [orb] in H. rewrite !orb_true_iff in H. unfold id_lenb in H.
  destruct H as [[[H|H]|H]|H]; [exists 1|exists 2|exists 3|exists 4]; (split; [lia|]); lia.
Qed.

(** The tables: their entries are contexts other than the top level and the global elements, each once. *)
Definition entryb (s : sem) : bool := inside (s_ctx s) && (2 <? s_ctx s).
Definition tableb (c : Z) (x : ctx) : bool :=
  match c_sem x with
  | None => true
  | Some l => forallb entryb l && distinct (map s_ctx l) && match c_glob x with [a; b] => (s_ctx a =? cEbmlVoid) && (s_ctx b =? cEbmlCrc32) | _ => false end
  end && (negb (match c_class x with KMaster => true | _ => false end) || match c_sem x with None => false | Some _ => true end)
  && match c_class x with KMaster => true | _ => match c_sem x with None => true | Some _ => false end end.
Lemma tables_ok : forall c, inside c = true -> tableb c (mk c) = true.
Proof. apply mk_all. vm_compute. reflexivity. Qed.
Lemma master_table c : c_class (mk c) = KMaster -> inside c = true /\ exists l a b, c_sem (mk c) = Some l /\ c_glob (mk c) = [a; b] /\ s_ctx a = cEbmlVoid /\ s_ctx b = cEbmlCrc32 /\
  (forall s, In s l -> inside (s_ctx s) = true /\ 2 < s_ctx s) /\ NoDup (map s_ctx l).
Proof.
  intros K. destruct (mk_cases c) as [H|H]; [|apply mk_none_no in H; destruct H as (_ & H & _); congruence]. split; [exact H|].
  pose proof (tables_ok c H) as T. unfold tableb in T. rewrite K in T. destruct (c_sem (mk c)) as [l|]; [|discriminate]. rewrite !andb_true_iff in T.
  destruct T as [[[[T1 T2] T3] _] _]. destruct (c_glob (mk c)) as [|a [|b [|? ?]]]; try discriminate. apply andb_true_iff in T3. exists l, a, b.
  split; [reflexivity|]. split; [reflexivity|]. split; [lia|]. split; [lia|]. split; [|apply distinct_ok; exact T2].
  intros s Hs. rewrite forallb_forall in T1. specialize (T1 s Hs). unfold entryb in T1. apply andb_true_iff in T1. split; [apply T1|lia].
Qed.
Lemma sem_master c l : c_sem (mk c) = Some l -> c_class (mk c) = KMaster.
Proof.
  intros H. destruct (mk_cases c) as [Hc|Hc]; [|apply mk_none_no in Hc; destruct Hc; congruence].
  pose proof (tables_ok c Hc) as T. unfold tableb in T. rewrite H in T. destruct (c_class (mk c)); try reflexivity; rewrite andb_false_r in T; discriminate.
Qed.
Lemma listed_inside p c : listed p c -> inside c = true /\ 2 < c /\ c_class (mk p) = KMaster.
Proof.
  intros (l & s & Hl & Hs & <-). pose proof (sem_master p l Hl) as K. destruct (master_table p K) as (_ & l' & a & b & Hl' & _ & _ & _ & He & _).
  rewrite Hl in Hl'. injection Hl' as <-. destruct (He s Hs). auto.
Qed.
Lemma allowed_inside p c : allowed p c -> inside c = true /\ c <> cStream /\ c <> cEbmlCrc32.
Proof.
  intros (K & [H| ->]); [|repeat split; discriminate]. apply listed_inside in H. unfold cStream, cEbmlCrc32. destruct H as (H1 & H2 & _). split; [exact H1|]. lia.
Qed.
(** What a context resolves. *)
Lemma names_inside p id s : c_class (mk p) = KMaster -> names mk p id s -> inside (s_ctx s) = true.
Proof.
  intros K (l & Hl & _ & [Hs|[_ Hs]]).
  - assert (H : listed p (s_ctx s)) by (exists l, s; auto). apply listed_inside in H. apply H.
  - destruct (master_table p K) as (_ & l' & a & b & _ & Hg & Ha & Hb & _). rewrite Hg in Hs. destruct Hs as [<-|[<-|[]]]; [rewrite Ha|rewrite Hb]; reflexivity.
Qed.
Lemma resolves_listed p c : listed p c -> resolves mk p (Known c).
Proof.
  intros H. destruct (listed_inside p c H) as (Hc & _ & K). exists c. split; [reflexivity|]. split.
  - destruct H as (l & s & Hl & Hs & <-). exists s, l. auto.
  - intros s Hs. assert (Hi := names_inside p _ s K Hs). destruct Hs as (l & _ & Hid & _). apply id_inj; assumption.
Qed.
Lemma resolves_global p c : c_class (mk p) = KMaster -> c = cEbmlVoid \/ c = cEbmlCrc32 -> resolves mk p (Known c).
Proof.
  intros K Hc. exists c. split; [reflexivity|]. assert (Hci : inside c = true) by (destruct Hc as [->| ->]; reflexivity). split.
  - destruct (master_table p K) as (_ & l & a & b & Hl & Hg & Ha & Hb & He & _). exists (if c =? cEbmlVoid then a else b), l. split; [exact Hl|].
    assert (Hid : s_ctx (if c =? cEbmlVoid then a else b) = c) by (destruct Hc as [->| ->]; cbn; assumption). rewrite Hid. split; [reflexivity|]. right. split.
    + intros s Hs Heq. destruct (He s Hs) as [H1 H2]. apply id_inj in Heq; [|exact H1|exact Hci]. destruct Hc; unfold cEbmlVoid, cEbmlCrc32 in *; lia.
    + rewrite Hg. destruct (c =? cEbmlVoid); [left|right; left]; reflexivity.
  - intros s Hs. assert (Hi := names_inside p _ s K Hs). destruct Hs as (l & _ & Hid & _). apply id_inj; assumption.
Qed.
Lemma resolves_allowed p c : allowed p c -> resolves mk p (Known c).
Proof. intros (K & [H| ->]); [apply resolves_listed; exact H|apply resolves_global; [exact K|left; reflexivity]]. Qed.

Lemma crc_only c : c_id (mk c) = 191 -> c = cEbmlCrc32.
Proof.
  intros H. destruct (mk_cases c) as [Hc|Hc]; [|apply mk_none_no in Hc; lia]. apply id_inj; [exact Hc|reflexivity|exact H].
Qed.

(** Trees that follow the schema can be read back. *)
Lemma conforms_readable flt_is wd cs : forall e depth, conforms cs depth e -> readable mk flt_is wd cs depth e.
Proof.
  induction e as [i v|i chk ch IH] using elt_ind2; intros depth H; inversion H; subst.
  - cbn [readable einfo]. split; [assumption|]. split; [assumption|]. split; [assumption|]. unfold eid_of. match goal with H : e_kind i = _ |- _ => rewrite H end. cbn [kind_class kind_id].
    split; [assumption|]. assert (Hn : c_id (mk c) <> 191) by (intros Hx; apply crc_only in Hx; contradiction). split; [|exact Hn].
    intros Hk. apply Hn. destruct (mk_cases c) as [Hc|Hc]; [|apply mk_none_no in Hc; destruct Hc as (_ & Hc & _); congruence].
    pose proof (mk_all (fun c x => match c_class x with KCrc => c_id x =? 191 | _ => true end) ltac:(vm_compute; reflexivity) c Hc) as T. cbn beta in T. rewrite Hk in T. lia.
  - match goal with H : e_kind i = Known c |- _ => rename H into Hk end. match goal with H : c_class (mk c) = KMaster |- _ => rename H into HK end.
    cbn [readable einfo]. split; [assumption|]. exists c. split; [exact Hk|]. split; [exact HK|]. split.
    { unfold eid_of. rewrite Hk. cbn [kind_id]. intros Hx. apply crc_only in Hx. subst c. discriminate HK. }
    split. { match goal with H : chk = 0 \/ _ |- _ => destruct H as [->|Hd]; [left; reflexivity|right] end. split; [exact Hd|]. exists cEbmlCrc32. split; [reflexivity|]. split; [reflexivity|].
      apply resolves_global; [exact HK|right; reflexivity]. }
    match goal with H : Forall (fun d => exists _, _) ch, H2 : Forall (conforms _ _) ch |- _ => clear -IH H H2; rename H into Ha, H2 into Hf end.
    induction ch as [|d ch IHc]; [exact I|]. apply Forall_cons_iff in IH. destruct IH as [I1 I2]. apply Forall_cons_iff in Ha. destruct Ha as [(c' & Hk' & Ha') Ha].
    apply Forall_cons_iff in Hf. destruct Hf as [F1 F2]. split; [|apply IHc; assumption]. intros _. split; [rewrite Hk'; apply resolves_allowed; exact Ha'|apply I1; exact F1].
Qed.

(** Lookups along the chains the library builds. *)
Lemma find_listed p c l : c_sem (mk p) = Some l -> listed p c -> exists s, find_sem mk (c_id (mk c)) l = Some s /\ s_ctx s = c.
Proof.
  intros Hl H. destruct (listed_inside p c H) as (Hc & _ & K). destruct (master_table p K) as (_ & l' & a & b & Hl' & _ & _ & _ & He & _). rewrite Hl in Hl'. injection Hl' as <-.
  destruct H as (l' & s & Hl' & Hs & <-). rewrite Hl in Hl'. injection Hl' as <-.
  destruct (find_sem mk (c_id (mk (s_ctx s))) l) as [s'|] eqn:F.
  - exists s'. split; [reflexivity|]. apply find_some in F. destruct F as [F1 F2]. apply Z.eqb_eq in F2. apply id_inj; [apply (He s' F1)|exact Hc|exact F2].
  - exfalso. pose proof (find_none _ _ F s Hs) as X. cbn beta in X. rewrite Z.eqb_refl in X. discriminate.
Qed.
Lemma find_unlisted p c l : c_sem (mk p) = Some l -> inside c = true -> ~ listed p c -> find_sem mk (c_id (mk c)) l = None.
Proof.
  intros Hl Hc Hn. destruct (find_sem mk (c_id (mk c)) l) as [s|] eqn:F; [|reflexivity]. exfalso. apply Hn. apply find_some in F. destruct F as [F1 F2]. apply Z.eqb_eq in F2.
  assert (H : listed p (s_ctx s)) by (exists l, s; auto). destruct (listed_inside _ _ H) as (Hi & _). apply id_inj in F2; [|exact Hi|exact Hc]. exists l, s. auto.
Qed.
Lemma find_glob p c : c_class (mk p) = KMaster -> inside c = true -> 2 < c -> find_sem mk (c_id (mk c)) (c_glob (mk p)) = None.
Proof.
  intros K Hc H2. destruct (master_table p K) as (_ & l & a & b & _ & Hg & Ha & Hb & _). rewrite Hg. unfold find_sem, find. rewrite Ha, Hb.
  destruct (Z.eqb_spec (c_id (mk cEbmlVoid)) (c_id (mk c))) as [e|_]; [apply id_inj in e; [|reflexivity|exact Hc]; unfold cEbmlVoid in e; lia|].
  destruct (Z.eqb_spec (c_id (mk cEbmlCrc32)) (c_id (mk c))) as [e|_]; [apply id_inj in e; [|reflexivity|exact Hc]; unfold cEbmlCrc32 in e; lia|reflexivity].
Qed.
Lemma using_level idlen allow c : forall k chain low p e, Forall (fun x => c_class (mk (fst x)) = KMaster) chain ->
  nth_error chain k = Some (p, e) -> listed p c -> (forall j p' e', (j < k)%nat -> nth_error chain j = Some (p', e') -> ~ listed p' c) ->
  create_using mk chain (c_id (mk c)) idlen allow low = Some (Known c, low + Z.of_nat k).
Proof.
  induction k as [|k IH]; intros chain low p e HK Hk Hl Hn; (destruct chain as [|[p0 e0] up]; [discriminate|]); apply Forall_cons_iff in HK; destruct HK as [K0 K]; cbn [fst] in K0;
    destruct (listed_inside p c Hl) as (Hc & H2 & _); destruct (master_table p0 K0) as (_ & l & _ & _ & Hs & _); cbn [create_using]; rewrite Hs.
  - cbn [nth_error] in Hk. injection Hk as <- <-. destruct (find_listed p0 c l Hs Hl) as (s & -> & ->). f_equal. f_equal. lia.
  - rewrite (find_unlisted p0 c l Hs Hc) by (apply (Hn 0%nat p0 e0); [lia|reflexivity]). rewrite (find_glob p0 c K0 Hc H2). cbn [nth_error] in Hk.
    destruct up as [|x up]; [destruct k; discriminate|]. rewrite (IH (x :: up) (low + 1) p e K Hk Hl); [f_equal; f_equal; lia|]. intros j p' e' Hj. apply (Hn (S j)). lia.
Qed.
Lemma nested_masters : forall chain, nested chain -> (forall c e up, chain = (c, e) :: up -> c_class (mk c) = KMaster) -> Forall (fun x => c_class (mk (fst x)) = KMaster) chain.
Proof.
  induction chain as [|[c e] up IH]; intros Hn H; [constructor|]. constructor; [apply (H c e up); reflexivity|]. destruct up as [|[p e'] up]; [constructor|].
  destruct Hn as [Hl Hn]. apply IH; [exact Hn|]. intros c0 e0 up0 [= <- <- <-]. apply listed_inside in Hl. apply Hl.
Qed.

(** Creation. *)
Lemma mk_complete wd prof fuel td c e : create mk td fuel true prof c = Ok e -> ~ needs_many mk wd prof c -> complete mk wd prof e.
Proof.
  intros H Hn. refine (create_complete mk td wd prof (fun c => ~ needs_many mk wd prof c) _ fuel c e Hn H).
  intros c0 H0 K. destruct (master_table c0 K) as (_ & l & _ & _ & Hl & _). exists l. split; [exact Hl|]. intros s Hs. split.
  - intros Hr. destruct (s_uniq s) eqn:U; [reflexivity|]. exfalso. apply H0. eapply many_here; eassumption.
  - intros Hw Hm. apply H0. eapply many_below; eassumption.
Qed.
Lemma in_forall2 {A B} (P : A -> B -> Prop) la lb : Forall2 P la lb -> forall b, In b lb -> exists a, In a la /\ P a b.
Proof. induction 1 as [|a b la lb H _ IH]; intros x []; [subst; exists a; split; [left; reflexivity|exact H]|]. destruct (IH x H0) as (y & H1 & H2). exists y. split; [right; exact H1|exact H2]. Qed.
Lemma mk_incomplete wd prof td c : needs_many mk wd prof c -> forall fuel e, create mk td fuel true prof c = Ok e -> ~ complete mk wd prof e.
Proof.
  induction 1 as [c l s K Hl Hs Hr Hu|c l s K Hl Hs Hw _ IH]; intros fuel e He Hc; (destruct fuel as [|fuel]; [rewrite create_master in He by exact K; discriminate|]);
    rewrite create_master in He by exact K; rewrite Hl in He; destruct (fill mk (create mk td fuel true prof) prof l []) as [| | |ch] eqn:F; try discriminate; cbn [bind] in He; injection He as <-;
    destruct (fill_ok mk _ _ (create_kind mk td fuel true prof) _ _ _ F) as (ss & new & Hch & H1 & H2 & H3); cbn [app] in Hch; subst new;
    destruct (master_table c K) as (_ & l' & _ & _ & Hl' & _ & _ & _ & Hin & Hnd); rewrite Hl in Hl'; injection Hl' as <-;
    inversion Hc as [|? ? ? l' Ht Hreq Hall]; subst; destruct Ht as (c1 & Hk1 & Hl1); cbn [with_set e_kind] in Hk1; rewrite appended_kind in Hk1; cbn [fresh_info e_kind] in Hk1; injection Hk1 as <-; rewrite Hl in Hl1; injection Hl1 as <-.
  - destruct (Hreq s Hs Hr) as (d & Hd & Hid). destruct (in_forall2 _ _ _ H1 d Hd) as (s' & _ & Hs' & Hw' & Hm & _).
    assert (Hx : s_ctx s' = s_ctx s). { apply id_inj; [apply (Hin s' Hs')|apply (Hin s Hs)|]. unfold eid_of in Hid. rewrite (create_kind mk td _ _ _ _ _ Hm) in Hid. exact Hid. }
    assert (Hsame : s' = s). { clear -Hnd Hs Hs' Hx. induction l as [|a l IH]; [contradiction|]. cbn [map] in Hnd. apply NoDup_cons_iff in Hnd. destruct Hnd as [N1 N2].
      destruct Hs as [->|Hs], Hs' as [->|Hs']; [reflexivity| | |auto]; exfalso; apply N1; [rewrite <- Hx; apply in_map; exact Hs'|rewrite Hx; apply in_map; exact Hs]. }
    subst s'. destruct Hw' as (_ & U & _). congruence.
  - destruct (H3 s Hs Hw) as (d & Hd & Hid). destruct (in_forall2 _ _ _ H1 d Hd) as (s' & _ & Hs' & Hw' & Hm & _).
    assert (Hx : s_ctx s' = s_ctx s). { apply id_inj; [apply (Hin s' Hs')|apply (Hin s Hs)|]. unfold eid_of in Hid. rewrite (create_kind mk td _ _ _ _ _ Hm) in Hid. exact Hid. }
    rewrite Hx in Hm. apply (IH fuel d Hm). rewrite Forall_forall in Hall. apply Hall. exact Hd.
Qed.
(** How deep mandatory masters go. *)
Fixpoint depth_of (n : nat) (c : Z) : nat :=
  match n with
  | O => O
  | S n => match c_sem (mk c) with None => O | Some l => S (fold_right (fun s a => if s_mand s && s_uniq s then Nat.max (depth_of n (s_ctx s)) a else a) O l) end
  end.
Definition rank_okb (c : Z) (x : ctx) : bool :=
  match c_sem x with
  | None => true
  | Some l => forallb (fun s => negb (s_mand s && s_uniq s) || match c_class (mk (s_ctx s)) with KMaster => Nat.ltb (depth_of 6 (s_ctx s)) (depth_of 6 c) | _ => true end) l
  end && Nat.leb (depth_of 6 c) 3.
Lemma rank_ok : forall c, inside c = true -> rank_okb c (mk c) = true.
Proof. apply mk_all. vm_compute. reflexivity. Qed.
Lemma mk_ranked prof : ranked mk prof (depth_of 6).
Proof.
  intros c K. destruct (master_table c K) as (Hc & l & _ & _ & Hl & _). exists l. split; [exact Hl|]. intros s Hs (W1 & W2 & _) Ks.
  pose proof (rank_ok c Hc) as R. unfold rank_okb in R. rewrite Hl in R. apply andb_true_iff in R. destruct R as [R _]. rewrite forallb_forall in R. specialize (R s Hs). rewrite W1, W2, Ks in R. cbn [andb negb orb] in R.
  apply Nat.ltb_lt. exact R.
Qed.
Lemma rank_small c : (depth_of 6 c <= 3)%nat.
Proof.
  destruct (mk_cases c) as [Hc|Hc].
  - pose proof (rank_ok c Hc) as R. unfold rank_okb in R. apply andb_true_iff in R. apply Nat.leb_le. apply R.
  - cbn [depth_of]. rewrite (proj1 (mk_none_no c Hc)). lia.
Qed.
Lemma mk_create_total td prof sd c fuel : (4 <= fuel)%nat -> exists e, create mk td fuel sd prof c = Ok e.
Proof. intros H. apply (create_total mk td prof (depth_of 6) (mk_ranked prof)). pose proof (rank_small c). lia. Qed.

(** Deciding [needs_many]. *)
Definition requiredb (wd : bool) (prof : Z) (s : sem) : bool :=
  s_mand s && (Z.land (s_dis s) prof =? 0) && (wd || match c_def (mk (s_ctx s)) with None => true | Some _ => false end).
Lemma requiredb_ok wd prof s : requiredb wd prof s = true <-> required mk wd prof s.
Proof.
  unfold requiredb, required. rewrite !andb_true_iff, orb_true_iff, (enabledb prof s). destruct (c_def (mk (s_ctx s))); split; intros H.
  - destruct H as [[H1 H2] [H3|H3]]; [auto|discriminate].
  - destruct H as (H1 & H2 & [H3|H3]); [auto|discriminate].
  - tauto.
  - destruct H as (H1 & H2 & H3). auto.
Qed.
Fixpoint manyb (n : nat) (wd : bool) (prof : Z) (c : Z) : bool :=
  match n with
  | O => false
  | S n => match c_class (mk c), c_sem (mk c) with
           | KMaster, Some l => existsb (fun s => (requiredb wd prof s && negb (s_uniq s)) || (s_mand s && s_uniq s && (Z.land (s_dis s) prof =? 0) && manyb n wd prof (s_ctx s))) l
           | _, _ => false
           end
  end.
Lemma manyb_sound wd prof n : forall c, manyb n wd prof c = true -> needs_many mk wd prof c.
Proof.
  induction n as [|n IH]; intros c; cbn [manyb]; [discriminate|]. destruct (c_class (mk c)) eqn:K; try discriminate. destruct (c_sem (mk c)) as [l|] eqn:Hl; [|discriminate].
  intros H. apply existsb_exists in H. destruct H as (s & Hs & H). apply orb_true_iff in H. destruct H as [H|H].
  - apply andb_true_iff in H. destruct H as [H1 H2]. eapply many_here; try eassumption; [apply requiredb_ok; exact H1|]. destruct (s_uniq s); [discriminate|reflexivity].
  - apply andb_true_iff in H. destruct H as [H1 H2]. eapply many_below; try eassumption; [apply wantedb; exact H1|apply IH; exact H2].
Qed.
Definition closedb (wd : bool) (prof : Z) (L : list Z) : bool :=
  forallb (fun n => let c := Z.of_nat n in existsb (Z.eqb c) L || match c_sem (mk c) with None => true
    | Some l => forallb (fun s => negb (requiredb wd prof s && negb (s_uniq s)) && negb (s_mand s && s_uniq s && (Z.land (s_dis s) prof =? 0) && existsb (Z.eqb (s_ctx s)) L)) l end) (seq 0 270).
Lemma closedb_ok wd prof L : closedb wd prof L = true -> forall c, needs_many mk wd prof c -> In c L.
Proof.
  intros H c Hm. unfold closedb in H.
  assert (S1 : forall c l, c_class (mk c) = KMaster -> c_sem (mk c) = Some l -> In c L \/ forall s, In s l -> (requiredb wd prof s && negb (s_uniq s)) = false /\
    (s_mand s && s_uniq s && (Z.land (s_dis s) prof =? 0) && existsb (Z.eqb (s_ctx s)) L) = false).
  { intros c0 l K Hl. destruct (master_table c0 K) as (Hc & _). pose proof (mk_all (fun c x => existsb (Z.eqb c) L || match c_sem x with None => true
      | Some l => forallb (fun s => negb (requiredb wd prof s && negb (s_uniq s)) && negb (s_mand s && s_uniq s && (Z.land (s_dis s) prof =? 0) && existsb (Z.eqb (s_ctx s)) L)) l end) H c0 Hc) as T.
    cbn beta in T. rewrite Hl in T. apply orb_true_iff in T. destruct T as [T|T].
    - left. apply existsb_exists in T. destruct T as (x & Hx & E). apply Z.eqb_eq in E. subst x. exact Hx.
    - right. intros s Hs. rewrite forallb_forall in T. specialize (T s Hs). apply andb_true_iff in T. destruct T as [T1 T2]. apply negb_true_iff in T1. apply negb_true_iff in T2. auto. }
  induction Hm as [c l s K Hl Hs Hr Hu|c l s K Hl Hs Hw _ IH]; (destruct (S1 c l K Hl) as [Hin|Hall]; [exact Hin|]); exfalso; destruct (Hall s Hs) as [A B].
  - apply requiredb_ok in Hr. rewrite Hr, Hu in A. discriminate.
  - apply wantedb in Hw. rewrite Hw in B. cbn [andb] in B. rewrite <- not_true_iff_false in B. apply B. apply existsb_exists. exists (s_ctx s). split; [exact IH|apply Z.eqb_refl].
Qed.
