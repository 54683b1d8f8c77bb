From Verif Require Import Base BaseProofs Vint EbmlId IntElt EltHead Ebml Tree TreeRead TreeSpec TreeProofs TreeProofs2 StreamProofs Create CreateSpec.

Section Proofs.
Context (E : schema).
Notation find_child := (find_child E).
Notation has := (has E).
Notation sem_id := (sem_id E).
Notation fill := (fill E).

Lemma enabled_land prof s : Z.land (s_dis s) prof = 0 <-> enabled prof s.
Proof.
  unfold enabled. split.
  - intros H n Hn H1. assert (H2 : Z.testbit (Z.land (s_dis s) prof) n = false) by (rewrite H; apply Z.bits_0).
    rewrite Z.land_spec, H1 in H2. exact H2.
  - intros H. apply Z.bits_inj'. intros n Hn. rewrite Z.land_spec, Z.bits_0. destruct (Z.testbit (s_dis s) n) eqn:T; [|reflexivity].
    rewrite (H n Hn T). reflexivity.
Qed.
Lemma enabledb prof s : (Z.land (s_dis s) prof =? 0) = true <-> enabled prof s.
Proof. rewrite Z.eqb_eq. apply enabled_land. Qed.
Lemma wantedb prof s : s_mand s && s_uniq s && (Z.land (s_dis s) prof =? 0) = true <-> wanted prof s.
Proof. rewrite !andb_true_iff, enabledb. unfold wanted. tauto. Qed.

Lemma find_child_some id ch c : find_child id ch = Some c -> In c ch /\ eid_of E (einfo c) = id.
Proof. intros H. apply find_some in H. destruct H as [H1 H2]. apply Z.eqb_eq in H2. auto. Qed.
Lemma find_child_none id ch : find_child id ch = None <-> ~ has id ch.
Proof.
  split.
  - intros H (c & H1 & H2). pose proof (find_none _ _ H c H1) as H3. cbn in H3. apply Z.eqb_neq in H3. contradiction.
  - intros H. destruct (find_child id ch) as [c|] eqn:F; [|reflexivity]. exfalso. apply H. exists c. apply find_child_some. exact F.
Qed.
Lemma has_app id a b : has id (a ++ b) <-> has id a \/ has id b.
Proof.
  split; [intros (c & H & H2); apply in_app_iff in H; destruct H; [left|right]; exists c; auto
         |intros [(c & H & H2)|(c & H & H2)]; exists c; (split; [apply in_app_iff; auto|exact H2])].
Qed.

(** ** The filling loop *)
Lemma Forall2_weaken {A B} (P Q : A -> B -> Prop) la lb : (forall a b, P a b -> Q a b) -> Forall2 P la lb -> Forall2 Q la lb.
Proof. intros H HF. induction HF; constructor; auto. Qed.
Lemma fill_ok mk prof (Hmk : forall c e, mk c = Ok e -> e_kind (einfo e) = Known c) l : forall ch ch', fill mk prof l ch = Ok ch' ->
  exists ss new, ch' = ch ++ new /\ Forall2 (fun s e => In s l /\ wanted prof s /\ mk (s_ctx s) = Ok e /\ ~ has (sem_id s) ch) ss new /\
    NoDup (map sem_id ss) /\ (forall s, In s l -> wanted prof s -> has (sem_id s) ch').
Proof.
  induction l as [|s l IH]; intros ch ch'; cbn [Create.fill].
  - intros [= <-]. exists [], []. rewrite app_nil_r. split; [reflexivity|]. split; [constructor|]. split; [constructor|]. intros s [].
  - assert (Hin : forall new ss ch0, Forall2 (fun s0 e => In s0 l /\ wanted prof s0 /\ mk (s_ctx s0) = Ok e /\ ~ has (sem_id s0) ch0) ss new ->
       Forall2 (fun s0 e => In s0 (s :: l) /\ wanted prof s0 /\ mk (s_ctx s0) = Ok e /\ ~ has (sem_id s0) ch0) ss new).
    { intros new ss ch0 HF. eapply Forall2_weaken; [|exact HF]. intros s0 e0 (H1 & H2). split; [right; exact H1|exact H2]. }
    destruct (s_mand s && s_uniq s && (Z.land (s_dis s) prof =? 0)) eqn:W.
    + destruct (find_child (c_id (E (s_ctx s))) ch) as [c|] eqn:F.
      * intros H. destruct (IH _ _ H) as (ss & new & -> & H1 & H2 & H3). exists ss, new. split; [reflexivity|]. split; [apply Hin; exact H1|]. split; [exact H2|].
        intros s' [->|Hs] Hw; [|auto]. apply has_app. left. apply find_child_some in F. exists c. exact F.
      * destruct (mk (s_ctx s)) as [| | |e] eqn:M; try discriminate. cbn [bind]. intros H. destruct (IH _ _ H) as (ss & new & -> & H1 & H2 & H3).
        assert (He : eid_of E (einfo e) = sem_id s) by (unfold eid_of; rewrite (Hmk _ _ M); reflexivity).
        assert (Hh : has (sem_id s) (ch ++ [e])) by (apply has_app; right; exists e; split; [left; reflexivity|exact He]).
        exists (s :: ss), (e :: new). split; [rewrite <- app_assoc; reflexivity|]. split; [|split].
        -- constructor.
           ++ split; [left; reflexivity|]. split; [apply wantedb; exact W|]. split; [exact M|]. apply find_child_none. exact F.
           ++ eapply Forall2_weaken; [|exact H1]. intros s0 e0 (I1 & I2 & I3 & I4). split; [right; exact I1|]. split; [exact I2|]. split; [exact I3|].
              intros Hc. apply I4. apply has_app. left. exact Hc.
        -- cbn [map]. constructor; [|exact H2]. intros Hc. apply in_map_iff in Hc. destruct Hc as (s0 & Hs0 & Hin0).
           assert (Hn : ~ has (sem_id s0) (ch ++ [e])).
           { clear -H1 Hin0. induction H1 as [|a b la lb Hab HF IHF]; [contradiction|]. destruct Hin0 as [->|Hin0]; [apply Hab|auto]. }
           apply Hn. rewrite Hs0. exact Hh.
        -- intros s' [->|Hs] Hw; [|apply H3; auto]. apply has_app. left. exact Hh.
    + intros H. destruct (IH _ _ H) as (ss & new & -> & H1 & H2 & H3). exists ss, new. split; [reflexivity|]. split; [apply Hin; exact H1|]. split; [exact H2|].
      intros s' [->|Hs] Hw; [|auto]. apply wantedb in Hw. congruence.
Qed.

Lemma fill_idem mk prof l ch : (forall s, In s l -> wanted prof s -> has (sem_id s) ch) -> fill mk prof l ch = Ok ch.
Proof.
  induction l as [|s l IH]; intros H; cbn [Create.fill]; [reflexivity|]. destruct (_ && _ && _) eqn:W.
  - apply wantedb in W. destruct (find_child (c_id (E (s_ctx s))) ch) eqn:F; [apply IH; intros; apply H; [right|]; assumption|].
    apply find_child_none in F. exfalso. apply F. apply H; [left; reflexivity|exact W].
  - apply IH. intros; apply H; [right|]; assumption.
Qed.

Lemma fill_total mk prof l (Hmk : forall s, In s l -> wanted prof s -> exists e, mk (s_ctx s) = Ok e) : forall ch, exists ch', fill mk prof l ch = Ok ch'.
Proof.
  induction l as [|s l IH]; intros ch; cbn [Create.fill]; [eauto|].
  assert (IH' := IH (fun s0 H => Hmk s0 (or_intror H))). destruct (_ && _ && _) eqn:W; [|auto]. destruct (find_child _ ch); [auto|].
  apply wantedb in W. destruct (Hmk s (or_introl eq_refl) W) as (e & ->). cbn [bind]. auto.
Qed.

(** ** Checking *)
Lemma check_table_ok wd prof ch l : check_table E wd prof ch l = true <-> (forall s, In s l -> required E wd prof s -> has (sem_id s) ch).
Proof.
  induction l as [|s l IH]; cbn [check_table].
  - split; [intros _ s []|reflexivity].
  - destruct (s_mand s && (Z.land (s_dis s) prof =? 0) && (wd || match c_def (E (s_ctx s)) with None => true | Some _ => false end)) eqn:R.
    + assert (Hr : required E wd prof s).
      { apply andb_true_iff in R. destruct R as [R R3]. apply andb_true_iff in R. destruct R as [R1 R2]. apply enabledb in R2. split; [exact R1|]. split; [exact R2|].
        apply orb_true_iff in R3. destruct R3 as [R3|R3]; [left; exact R3|right]. destruct (c_def _); [discriminate|reflexivity]. }
      destruct (find_child (c_id (E (s_ctx s))) ch) as [d|] eqn:F; cbn [andb].
      * rewrite IH. split; [|intros H s' Hs; apply H; right; exact Hs]. intros H s' [->|Hs]; [|auto]. intros _. exists d. apply find_child_some. exact F.
      * split; [discriminate|]. intros H. exfalso. apply find_child_none in F. apply F. apply H; [left; reflexivity|exact Hr].
    + cbn [andb]. rewrite IH. split; [|intros H s' Hs; apply H; right; exact Hs]. intros H s' [->|Hs]; [|auto]. intros (R1 & R2 & R3). exfalso.
      apply enabledb in R2. rewrite R1, R2 in R. destruct R3 as [->|R3]; [discriminate|]. rewrite R3, orb_true_r in R. discriminate.
Qed.
Lemma table_fun i l l' : table E i l -> table E i l' -> l = l'.
Proof. intros (c & H1 & H2) (c' & H3 & H4). congruence. Qed.
Lemma check_ok wd prof e : tabled E e -> exists b, check_mandatory E wd prof e = Ok b /\ (b = true <-> complete E wd prof e).
Proof.
  induction e as [i v|i chk ch IH] using elt_ind2; intros Ht.
  - exists true. split; [reflexivity|]. split; [constructor|reflexivity].
  - inversion Ht as [|? ? ? l Hl Hch]; subst. destruct Hl as (c & Hk & Hs).
    cbn [check_mandatory]. rewrite Hk, Hs. destruct (check_table E wd prof ch l) eqn:T; cbn [negb].
    + assert (T' := proj1 (check_table_ok _ _ _ _) T). clear T.
      enough (exists b, (fix all (l : list elt) : res bool := match l with [] => Ok true
        | c :: l => match c with Leaf _ _ => all l | Master _ _ _ => do b <- check_mandatory E wd prof c; if b then all l else Ok false end end) ch = Ok b
        /\ (b = true <-> Forall (complete E wd prof) ch)) as (b & -> & Hb).
      { exists b. split; [reflexivity|]. rewrite Hb. split.
        - intros HF. econstructor; [exists c; eauto|exact T'|exact HF].
        - intros HC. inversion HC; subst. assumption. }
      clear Hk Hs T' Ht. induction ch as [|d ch IHch]; [exists true; split; [reflexivity|]; split; [constructor|reflexivity]|].
      apply Forall_cons_iff in IH. destruct IH as [IHd IH]. apply Forall_cons_iff in Hch. destruct Hch as [Hd Hch].
      destruct (IHch IH Hch) as (b & Hb & Hb'). destruct d as [i' v'|i' chk' ch'].
      * exists b. split; [exact Hb|]. rewrite Hb', Forall_cons_iff. split; [intros; split; [constructor|assumption]|tauto].
      * destruct (IHd Hd) as (b1 & E1 & Hb1). rewrite E1. cbn [bind]. destruct b1.
        -- exists b. split; [exact Hb|]. rewrite Hb', Forall_cons_iff. split; [intros; split; [apply Hb1; reflexivity|assumption]|tauto].
        -- exists false. split; [reflexivity|]. split; [discriminate|]. rewrite Forall_cons_iff. intros [HC _]. apply Hb1 in HC. discriminate.
    + exists false. split; [reflexivity|]. split; [discriminate|]. intros HC. exfalso. inversion HC as [|? ? ? l' Hl' Hreq HF]; subst.
      rewrite (table_fun i l' l Hl') in Hreq by (exists c; auto). apply check_table_ok in Hreq. congruence.
Qed.

(** ** Copies *)
Lemma copy_info_id i : e_fin i = true -> e_defsz i = class_defsz (kind_class E (e_kind i)) -> copy_info E i = i.
Proof. destruct i; unfold copy_info, fresh_info; cbn. intros -> ->. reflexivity. Qed.
Lemma cstr_join s r : ~ In 0 s -> cstr (s ++ 0 :: r) = Some s.
Proof.
  induction s as [|c s IH]; intros H; cbn [app cstr]; [reflexivity|]. replace (c =? 0) with false by (symmetry; apply Z.eqb_neq; intros ->; apply H; left; reflexivity).
  rewrite IH by (intros Hc; apply H; right; exact Hc). reflexivity.
Qed.
Lemma strncpy_ok s r : ~ In 0 s -> forall n, (length s < n)%nat -> strncpy (s ++ 0 :: r) n = Some (s ++ 0 :: repeat 0 (n - length s - 1)).
Proof.
  induction s as [|c s IH]; intros Hn n Hl; (destruct n as [|n]; [cbn in Hl; lia|]); cbn [app strncpy length].
  - cbn [Z.eqb]. cbn [repeat]. repeat f_equal. lia.
  - replace (c =? 0) with false by (symmetry; apply Z.eqb_neq; intros ->; apply Hn; left; reflexivity).
    rewrite IH by ((intros Hc; apply Hn; right; exact Hc) || (cbn [length] in Hl; lia)). repeat f_equal.
Qed.

Lemma copy_alike e : copyable E e -> exists e', copy E e = Ok e' /\ alike e e'.
Proof.
  induction e as [i v|i chk ch IH] using elt_ind2; intros HC.
  - inversion HC as [? ? H1 H2 H3|]; subst. cbn [copy]. rewrite (copy_info_id i H1 H2). destruct v as [x|x|b|d|c|]; cbn [copy_val bind].
    1,2,4,5,6: eexists; split; [reflexivity|]; constructor; reflexivity.
    destruct H3 as (b' & s & -> & Hs & Hl). destruct (cstr_split _ _ Hs) as (r & -> & Hn).
    pose proof (zlen_nonneg s). destruct (Z.to_nat (e_dsize i + 1)) as [|n] eqn:N; [lia|].
    rewrite (strncpy_ok s r Hn) by (unfold zlen in *; lia). cbn [opt_res bind]. eexists. split; [reflexivity|]. constructor. exists s, r. eexists. repeat split; auto.
  - inversion HC as [|? ? ? H1 Hk H2]; subst. cbn [copy].
    enough (exists ch', (fix all (l : list elt) : res (list elt) := match l with [] => Ok [] | c :: l => do c <- copy E c; do l <- all l; Ok (c :: l) end) ch = Ok ch'
      /\ Forall2 alike ch ch') as (ch' & -> & HF).
    { cbn [bind]. eexists. split; [reflexivity|]. assert (Hd : e_defsz (copy_info E i) = -1) by (unfold copy_info, fresh_info; cbn; rewrite Hk; reflexivity).
      unfold appended. destruct (zlen (@nil elt) =? zlen ch') eqn:L; (constructor; [reflexivity|symmetry; exact H1|reflexivity|reflexivity| | |exact Hd|exact HF]).
      - left. reflexivity.
      - left. reflexivity.
      - right. split; [reflexivity|]. intros ->. inversion HF; subst. discriminate L.
      - right. reflexivity. }
    clear HC H1. induction ch as [|c ch IHch]; [exists []; split; [reflexivity|constructor]|].
    apply Forall_cons_iff in IH. destruct IH as [IHc IH]. apply Forall_cons_iff in H2. destruct H2 as [Hc H2].
    destruct (IHc Hc) as (c' & -> & Hc'). destruct (IHch IH H2) as (ch' & Ech & Hch'). cbn [bind]. rewrite Ech. cbn [bind]. exists (c' :: ch'). split; [reflexivity|]. constructor; assumption.
Qed.
End Proofs.

Section Creation.
Context (E : schema) (to_double : Z -> Z).
Notation find_child := (find_child E).
Notation has := (has E).
Notation sem_id := (sem_id E).
Notation create := (create E to_double).
Notation fill := (fill E).
(** ** Creation *)
Lemma default_leaf_kind c : c_class (E c) <> KMaster -> exists i v, default_leaf E to_double c = Leaf i v /\ e_kind i = Known c.
Proof.
  intros H. unfold default_leaf, int_set, float_set, string_set, fresh_elt, kind_class.
  destruct (c_class (E c)); try contradiction; destruct (c_def (E c)) as [[|]|]; cbn; eauto.
Qed.
Lemma create_leaf fuel sd prof c : c_class (E c) <> KMaster -> create fuel sd prof c = Ok (if sd then default_leaf E to_double c else fresh_elt E (Known c)).
Proof. intros H. destruct fuel; cbn [Create.create]; destruct (c_class (E c)); try contradiction; reflexivity. Qed.
Lemma fresh_elt_leaf c : c_class (E c) <> KMaster -> exists i v, fresh_elt E (Known c) = Leaf i v /\ e_kind i = Known c.
Proof. intros H. unfold fresh_elt, kind_class. destruct (c_class (E c)) eqn:K; try contradiction; eexists; eexists; (split; [reflexivity|reflexivity]). Qed.
Lemma appended_kind i a b : e_kind (appended i a b) = e_kind i.
Proof. unfold appended. destruct (_ =? _); reflexivity. Qed.
Lemma create_master fuel sd prof c : c_class (E c) = KMaster -> create fuel sd prof c =
  if sd then match fuel with O => Fuel | S fuel => match c_sem (E c) with None => Null
    | Some l => do ch <- fill (create fuel sd prof) prof l []; Ok (Master (with_set (appended (fresh_info E (Known c)) [] ch) true) 0 ch) end end
  else Ok (Master (fresh_info E (Known c)) 0 []).
Proof. intros H. destruct fuel; cbn [Create.create]; rewrite H; reflexivity. Qed.
Lemma master_dec c : c_class (E c) = KMaster \/ c_class (E c) <> KMaster.
Proof. destruct (c_class (E c)); (left; reflexivity) || (right; discriminate). Qed.
Lemma create_kind fuel sd prof c e : create fuel sd prof c = Ok e -> e_kind (einfo e) = Known c.
Proof.
  destruct (master_dec c) as [K|K].
  - rewrite create_master by exact K. destruct sd; [|intros [= <-]; reflexivity]. destruct fuel; [discriminate|]. destruct (c_sem (E c)); [|discriminate].
    destruct (fill _ _ _ _); [discriminate..|]. cbn [bind]. intros [= <-]. cbn [einfo with_set e_kind]. apply appended_kind.
  - rewrite create_leaf by exact K. intros [= <-]. destruct sd; [destruct (default_leaf_kind c K) as (i & v & -> & Hk)|destruct (fresh_elt_leaf c K) as (i & v & -> & Hk)]; exact Hk.
Qed.

(** Masters that a creation with defaults reaches are ranked. *)
Definition ranked (prof : Z) (rank : Z -> nat) : Prop := forall c, c_class (E c) = KMaster ->
  exists l, c_sem (E c) = Some l /\ forall s, In s l -> wanted prof s -> c_class (E (s_ctx s)) = KMaster -> (rank (s_ctx s) < rank c)%nat.
Lemma create_total prof rank : ranked prof rank -> forall fuel sd c, (rank c < fuel)%nat -> exists e, create fuel sd prof c = Ok e.
Proof.
  intros HR. induction fuel as [|fuel IH]; intros sd c Hf; [lia|].
  destruct (master_dec c) as [K|K]; [|rewrite create_leaf by exact K; eauto].
  rewrite create_master by exact K. destruct sd; [|eauto]. destruct (HR c K) as (l & -> & Hl).
  destruct (fill_total E (create fuel true prof) prof l) with (ch := @nil elt) as (ch' & ->); [|cbn [bind]; eauto].
  intros s Hs Hw. destruct (master_dec (s_ctx s)) as [K'|K']; [|rewrite create_leaf by exact K'; eauto].
  apply IH. specialize (Hl s Hs Hw K'). lia.
Qed.

(** A set of contexts closed under what creation makes, where everything required is made. *)
Definition self_filled (wd : bool) (prof : Z) (P : Z -> Prop) : Prop := forall c, P c -> c_class (E c) = KMaster ->
  exists l, c_sem (E c) = Some l /\ forall s, In s l -> (required E wd prof s -> s_uniq s = true) /\ (wanted prof s -> P (s_ctx s)).
Lemma create_complete wd prof P : self_filled wd prof P -> forall fuel c e, P c -> create fuel true prof c = Ok e -> complete E wd prof e.
Proof.
  intros HP. induction fuel as [|fuel IH]; intros c e Hc.
  - destruct (master_dec c) as [K|K]; [rewrite create_master by exact K; discriminate|]. rewrite create_leaf by exact K.
    intros [= <-]. destruct (default_leaf_kind c K) as (i & v & -> & _). constructor.
  - destruct (master_dec c) as [K|K]; [|rewrite create_leaf by exact K; intros [= <-]; destruct (default_leaf_kind c K) as (i & v & -> & _); constructor].
    rewrite create_master by exact K. destruct (HP c Hc K) as (l & Hl & Hs). rewrite Hl. destruct (fill _ _ _ _) as [| | |ch] eqn:F; try discriminate.
    cbn [bind]. intros [= <-]. destruct (fill_ok E _ _ (create_kind fuel true prof) _ _ _ F) as (ss & new & Hch & H1 & H2 & H3). cbn [app] in Hch. subst new.
    apply complete_master with (l := l).
    + exists c. split; [cbn [with_set e_kind]; apply appended_kind|exact Hl].
    + intros s Hin Hr. apply H3; [exact Hin|]. destruct Hr as (R1 & R2 & R3). split; [exact R1|]. split; [|exact R2]. apply (Hs s Hin). repeat split; assumption.
    + clear F H2 H3. induction H1 as [|s e ss ch (I1 & I2 & I3 & I4) HF IHF]; constructor; [|exact IHF]. apply (IH (s_ctx s)); [|exact I3]. apply (Hs s I1). exact I2.
Qed.

End Creation.
