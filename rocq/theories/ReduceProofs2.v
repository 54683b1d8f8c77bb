From Verif Require Import Base BaseProofs Ebml Tree TreeRead TreeSpec TreeProofs Create CreateSpec CreateProofs CreateProofs2 Reduce ReduceSpec ReduceProofs.

Section Main.
Context (E : schema) (td : Z -> Z) (fuel : nat) (unsafe : bool) (prof : Z).
Notation eid c := (eid_of E (einfo c)).
Notation junk := (junk E).
Notation gone := (gone E prof).
Notation neat := (neat E prof unsafe).
Notation cleaned := (cleaned E td prof unsafe).

Lemma dropped_junk c : dropped E c = true <-> junk c.
Proof.
  unfold dropped, ReduceSpec.junk. destruct (kind_class E (e_kind (einfo c))); rewrite ?Z.eqb_eq; unfold ID_CRC; split; intros H; try tauto; try (destruct H as [H|[H|H]]; [discriminate|discriminate|exact H]).
Qed.
Lemma nodup_line l : NoDup (map (sem_id E) l) -> forall s c, In s l -> sem_id E s = eid c -> forall s', line E l c s' -> s' = s.
Proof.
  intros Hn s c Hs Hc s' Hl. apply sem_line in Hl. induction l as [|t l IH]; [destruct Hs|]. cbn [map] in Hn. apply NoDup_cons_iff in Hn. destruct Hn as [N1 N2]. unfold sem_of in *. cbn [find] in Hl.
  destruct (c_id (E (s_ctx t)) =? eid c) eqn:Q.
  - injection Hl as <-. destruct Hs as [->|Hs]; [reflexivity|]. apply Z.eqb_eq in Q. elim N1. replace (sem_id E t) with (sem_id E s) by (unfold sem_id at 2; congruence). apply in_map. exact Hs.
  - destruct Hs as [->|Hs]; [apply Z.eqb_neq in Q; contradiction|]. apply IH; assumption.
Qed.
Lemma line_in l c s : line E l c s -> In s l.
Proof. intros (l1 & l2 & -> & _). apply in_app_iff. right. left. reflexivity. Qed.
Lemma with_szlen_kind i n : e_kind (with_szlen i n) = e_kind i. Proof. reflexivity. Qed.

(** ** What is created *)
Lemma fresh_szlen k : e_szlen (fresh_info E k) = 0. Proof. reflexivity. Qed.
Lemma default_szlen c : e_szlen (einfo (default_leaf E td c)) = 0.
Proof. unfold default_leaf, fresh_elt. destruct (c_class (E c)), (c_def (E c)) as [[|]|]; cbn [kind_class]; try (destruct (c_class (E c))); reflexivity. Qed.
Lemma appended_szlen i a b : e_szlen (appended i a b) = e_szlen i. Proof. unfold appended. destruct (_ =? _); reflexivity. Qed.

Lemma create_neat : sound_tables E prof -> forall n c e, create E td n true prof c = Ok e -> everywhere neat e.
Proof.
  intros Snd. induction n as [|n IH]; intros c e He; (destruct (master_dec E c) as [K|K]; [rewrite create_master in He by exact K|rewrite create_leaf in He by exact K]).
  - discriminate.
  - injection He as <-. pose proof (default_szlen c) as Z0. destruct (default_leaf_kind E td c K) as (i & v & Hd & Hk). rewrite Hd in *. constructor. split; [exact Z0|exact I].
  - destruct (c_sem (E c)) as [l|] eqn:Hl; [|discriminate]. destruct (fill E (create E td n true prof) prof l []) as [| | |ch] eqn:F; try discriminate. cbn [bind] in He. injection He as <-.
    destruct (fill_ok E _ _ (create_kind E td n true prof) _ _ _ F) as (ss & new & Hch & H1 & H2 & H3). cbn [app] in Hch. subst new. destruct (Snd c l Hl) as [Hnd Hw].
    assert (Hids : map (fun e => eid e) ch = map (sem_id E) ss).
    { clear -H1. induction H1 as [|s e ss ch (_ & _ & H & _) _ IHF]; [reflexivity|]. cbn [map]. f_equal; [unfold eid_of; rewrite (create_kind E td _ _ _ _ _ H); reflexivity|exact IHF]. }
    assert (Hfrom : forall d, In d ch -> exists s, In s l /\ wanted prof s /\ create E td n true prof (s_ctx s) = Ok d).
    { clear -H1. induction H1 as [|s e ss ch (H2 & H3 & H & _) _ IHF]; intros d Hd; [destruct Hd|]. destruct Hd as [<-|Hd]; [exists s; auto|]. apply IHF. exact Hd. }
    constructor.
    + split; [cbn [einfo with_set e_szlen]; apply appended_szlen|]. split; [reflexivity|]. split.
      * apply Forall_forall. intros d Hd. destruct (Hfrom d Hd) as (s & Hs & Ws & Cs). destruct (Hw s Hs Ws) as (W1 & W2 & W3). pose proof (create_kind E td _ _ _ _ _ Cs) as Kd.
        intros [J|[J|J]]; unfold kind_class, eid_of in J; rewrite Kd in J; contradiction.
      * exists l. split; [exists c; split; [cbn [with_set e_kind]; rewrite appended_kind; reflexivity|exact Hl]|]. split; [exact H3|]. split.
        -- intros a b d x d' s -> Hid Hline. exfalso. rewrite map_app in Hids. cbn [map] in Hids. rewrite map_app in Hids. cbn [map] in Hids. rewrite <- Hids in H2. apply NoDup_remove_2 in H2. apply H2.
           rewrite Hid. apply in_app_iff. right. apply in_app_iff. right. left. reflexivity.
        -- intros c0 c1 c2 d s -> Hline. destruct (Hfrom d) as (s' & Hs' & Ws & Cs); [right; apply in_app_iff; right; left; reflexivity|].
           rewrite (nodup_line l Hnd s' d Hs') with (s' := s); [apply Ws| |exact Hline]. unfold eid_of. rewrite (create_kind E td _ _ _ _ _ Cs). reflexivity.
    + apply Forall_forall. intros d Hd. destruct (Hfrom d Hd) as (s & _ & _ & Cs). exact (IH _ _ Cs).
  - injection He as <-. pose proof (default_szlen c) as Z0. destruct (default_leaf_kind E td c K) as (i & v & Hd & Hk). rewrite Hd in *. constructor. split; [exact Z0|exact I].
Qed.

Lemma cleaned_kind e e' : cleaned e e' -> e_kind (einfo e') = e_kind (einfo e).
Proof. intros []; assumption. Qed.
Lemma junk_kind c c' : e_kind (einfo c') = e_kind (einfo c) -> junk c' <-> junk c.
Proof. intros H. unfold ReduceSpec.junk, eid_of. rewrite H. reflexivity. Qed.
Lemma complete_kind i i' chk chk' ch wd : e_kind i' = e_kind i -> complete E wd prof (Master i chk ch) -> complete E wd prof (Master i' chk' ch).
Proof. intros H HC. inversion HC as [|? ? ? l (c & Hk & Hl) H1 H2]; subst. econstructor; [exists c; split; [congruence|exact Hl]|exact H1|exact H2]. Qed.
Lemma tabled_kind i i' chk chk' ch : e_kind i' = e_kind i -> tabled E (Master i chk ch) -> tabled E (Master i' chk' ch).
Proof. intros H HC. inversion HC as [|? ? ? l (c & Hk & Hl) H1]; subst. econstructor; [exists c; split; [congruence|exact Hl]|exact H1]. Qed.

Lemma second_none a b c d x : eid c = eid d -> second_child E (eid c) (a ++ c :: b ++ d :: x) <> None.
Proof.
  intros H. unfold second_child. rewrite filter_app. cbn [filter]. rewrite Z.eqb_refl. rewrite filter_app. cbn [filter]. rewrite <- H, Z.eqb_refl.
  destruct (filter _ a) as [|p [|q r]]; cbn [app]; [|discriminate|discriminate]. destruct (filter _ b) as [|p' r']; discriminate.
Qed.

Theorem reduce_main : sound_tables E prof -> (forall c, exists e, create E td fuel true prof c = Ok e) -> forall e, tabled E e ->
  exists r, reduce E td fuel unsafe prof e = Ok r /\ (r = None <-> gone e) /\ forall e', r = Some e' -> cleaned e e' /\ everywhere neat e'.
Proof.
  intros Snd Tot. induction e as [i v|i chk ch IH] using elt_ind2; intros Ht.
  - eexists. split; [reflexivity|]. split; [split; [discriminate|intros G; inversion G]|]. intros e' [= <-]. split; [constructor; reflexivity|]. constructor. split; [reflexivity|exact I].
  - inversion Ht as [|? ? ? l Htab Hch]; subst. cbn [reduce].
    assert (Hp : exists i1 chk1, (if unsafe then no_checksum (with_szlen i 0) chk else (with_szlen i 0, chk)) = (i1, chk1) /\ e_kind i1 = e_kind i /\ e_szlen i1 = 0 /\ chk1 = (if unsafe then 0 else chk)).
    { destruct unsafe; [|eexists; eexists; split; [reflexivity|auto]]. unfold no_checksum. destruct (chk =? 0) eqn:Q; eexists; eexists; (split; [reflexivity|]); [apply Z.eqb_eq in Q|]; auto. }
    destruct Hp as (i1 & chk1 & -> & Hk1 & Hz1 & Hc1).
    assert (Hid1 : eid_of E i1 = eid_of E i) by (unfold eid_of; rewrite Hk1; reflexivity).
    (* the children *)
    assert (Hall : exists ch1, (fix all (l : list elt) : res (list elt) := match l with [] => Ok [] | c :: l => do r <- (if dropped E c then Ok None else reduce E td fuel unsafe prof c); do l' <- all l;
                     Ok (match r with None => l' | Some c' => c' :: l' end) end) ch = Ok ch1 /\
       sub (fun x y => cleaned x y /\ ~ junk x /\ ~ gone x) (fun c => junk c \/ gone c) ch ch1 /\ Forall (everywhere neat) ch1).
    { clear -IH Hch. induction ch as [|c ch IHch]; [exists []; split; [reflexivity|]; split; constructor|].
      apply Forall_cons_iff in IH. destruct IH as [IHc IH]. apply Forall_cons_iff in Hch. destruct Hch as [Hc Hch]. destruct (IHch IH Hch) as (ch1 & E1 & S1 & N1).
      destruct (dropped E c) eqn:D.
      - cbn [bind]. rewrite E1. cbn [bind]. exists ch1. split; [reflexivity|]. split; [|exact N1]. apply sub_skip; [left; apply dropped_junk; exact D|exact S1].
      - destruct (IHc Hc) as (r & -> & Hg & Hr). cbn [bind]. rewrite E1. cbn [bind]. destruct r as [c'|].
        + exists (c' :: ch1). split; [reflexivity|]. destruct (Hr c' eq_refl) as [R1 R2]. split; [|constructor; assumption]. apply sub_keep; [|exact S1]. split; [exact R1|]. split.
          * intros J. apply dropped_junk in J. congruence.
          * intros G. apply Hg in G. discriminate.
        + exists ch1. split; [reflexivity|]. split; [|exact N1]. apply sub_skip; [right; apply Hg; reflexivity|exact S1]. }
    destruct Hall as (ch1 & -> & S1 & N1).
    (* a group without what it needs *)
    assert (Hgrp : exists b, (if eid_of E i1 =? ID_BLOCK_GROUP then check_mandatory E false prof (Master i1 chk1 ch) else Ok true) = Ok b /\
       (b = false <-> eid_of E i = 160 /\ ~ complete E false prof (Master i chk ch))).
    { rewrite Hid1. destruct (eid_of E i =? ID_BLOCK_GROUP) eqn:Q.
      - destruct (check_ok E false prof (Master i1 chk1 ch) (tabled_kind i i1 chk chk1 ch Hk1 Ht)) as (b & Hb & Hb'). exists b. split; [exact Hb|]. apply Z.eqb_eq in Q. unfold ID_BLOCK_GROUP in Q.
        assert (Hcc : complete E false prof (Master i1 chk1 ch) <-> complete E false prof (Master i chk ch)) by (split; apply complete_kind; congruence).
        rewrite <- Hcc, <- Hb'. destruct b; split; intros K; try discriminate; try (split; [exact Q|discriminate]); try reflexivity. destruct K as [_ K]. elim K. reflexivity.
      - exists true. split; [reflexivity|]. apply Z.eqb_neq in Q. split; [discriminate|]. intros [K _]. contradiction. }
    destruct Hgrp as (b & -> & Hb). cbn [bind]. destruct b; cbn [negb].
    2: { eexists. split; [reflexivity|]. split; [|discriminate]. split; [intros _|reflexivity]. destruct (proj1 Hb eq_refl) as [B1 B2]. apply gone_group; assumption. }
    assert (Hb' : ~ (eid_of E i = 160 /\ ~ complete E false prof (Master i chk ch))) by (intros K; apply Hb in K; discriminate). clear Hb.
    set (i2 := if zlen ch1 =? zlen ch then i1 else with_need i1 true).
    assert (Hk2 : e_kind i2 = e_kind i) by (unfold i2; destruct (_ =? _); exact Hk1). assert (Hz2 : e_szlen i2 = 0) by (unfold i2; destruct (_ =? _); exact Hz1). clearbody i2.
    destruct Htab as (c0 & Hk0 & Hl0).
    assert (Hnil : ch1 = [] <-> Forall (fun c => junk c \/ gone c) ch).
    { clear -S1. split.
      - intros ->. remember (@nil elt) as z. induction S1; [constructor|discriminate|]. constructor; auto.
      - intros HF. destruct ch1 as [|y ch1]; [reflexivity|]. exfalso. destruct (sub_in _ _ _ _ S1 y (or_introl eq_refl)) as (x & Hx & _ & J1 & J2). rewrite Forall_forall in HF. destruct (HF x Hx); contradiction. }
    assert (Hemp : exists b, match ch1 with [] => check_mandatory E false prof (Master i2 chk1 []) | _ => Ok true end = Ok b /\
       (b = false <-> Forall (fun c => junk c \/ gone c) ch /\ exists s, In s l /\ required E false prof s)).
    { destruct ch1 as [|y ch1].
      - destruct (check_ok E false prof (Master i2 chk1 [])) as (b & Hb & Hbc). { econstructor; [exists c0; split; [congruence|exact Hl0]|constructor]. }
        exists b. split; [exact Hb|]. assert (HF := proj1 Hnil eq_refl). destruct b.
        + split; [discriminate|]. intros [_ (s & Hs & Hr)]. pose proof (proj1 Hbc eq_refl) as HC. inversion HC as [|? ? ? l' (c1 & Hk' & Hl') Hreq _]; subst. rewrite Hk2, Hk0 in Hk'. injection Hk' as <-. rewrite Hl0 in Hl'. injection Hl' as <-.
          destruct (Hreq s Hs Hr) as (d & [] & _).
        + split; [|reflexivity]. intros _. split; [exact HF|]. destruct (check_table E false prof [] l) eqn:T.
          * exfalso. assert (complete E false prof (Master i2 chk1 [])); [|apply Hbc in H; discriminate]. econstructor; [exists c0; split; [congruence|exact Hl0]| |constructor]. apply check_table_ok. exact T.
          * clear -T. induction l as [|s l IHl]; [discriminate|]. cbn [check_table] in T. destruct (s_mand s && (Z.land (s_dis s) prof =? 0) && (false || match c_def (E (s_ctx s)) with Some _ => false | None => true end)) eqn:Q.
            -- exists s. split; [left; reflexivity|]. apply andb_true_iff in Q. destruct Q as [Q Q3]. apply andb_true_iff in Q. destruct Q as [Q1 Q2]. split; [exact Q1|]. split; [apply enabledb; exact Q2|]. right. cbn [orb] in Q3. destruct (c_def (E (s_ctx s))); [discriminate|reflexivity].
            -- cbn [andb] in T. destruct (IHl T) as (s' & H1 & H2). exists s'. split; [right; exact H1|exact H2].
      - exists true. split; [reflexivity|]. split; [discriminate|]. intros [HF _]. apply Hnil in HF. discriminate. }
    destruct Hemp as (b & -> & Hb). cbn [bind]. destruct b; cbn [negb].
    2: { eexists. split; [reflexivity|]. split; [|discriminate]. split; [intros _|reflexivity]. destruct (proj1 Hb eq_refl) as [B1 (s & B2 & B3)]. eapply gone_empty; [exists c0; split; [exact Hk0|exact Hl0]|exact B2|exact B3|exact B1]. }
    assert (Hb'' : ~ (Forall (fun c => junk c \/ gone c) ch /\ exists s, In s l /\ required E false prof s)) by (intros K; apply Hb in K; discriminate). clear Hb.
    assert (Hng : ~ gone (Master i chk ch)).
    { intros G. inversion G as [? ? ? G1 G2|? ? ? l' s (c1 & Hk' & Hl') Hs Hr HF]; subst; [apply Hb'; auto|]. rewrite Hk0 in Hk'. injection Hk' as <-. rewrite Hl0 in Hl'. injection Hl' as <-. apply Hb''. eauto. }
    (* adding *)
    unfold add_mandatory. rewrite Hk2, Hk0, Hl0.
    destruct (fill_total E (create E td fuel true prof) prof l (fun s _ _ => Tot (s_ctx s)) ch1) as (ch3 & F). rewrite F. cbn [bind].
    destruct (fill_ok E _ _ (create_kind E td fuel true prof) _ _ _ F) as (ss & new & -> & F1 & F2 & F3).
    set (i3 := appended i2 ch1 (ch1 ++ new)). assert (Hk3 : e_kind i3 = e_kind i) by (unfold i3; rewrite appended_kind; exact Hk2). assert (Hz3 : e_szlen i3 = 0) by (unfold i3; rewrite appended_szlen; exact Hz2). clearbody i3.
    cbn [check_context]. rewrite Hk3, Hk0, Hl0.
    destruct (check_total E prof l (Some (fun _ => true)) (cc_fuel (ch1 ++ new)) (ch1 ++ new) 0%nat []) as (ch4 & rep & C4 & _); [unfold cc_fuel; lia|]. rewrite C4. cbn [bind Datatypes.fst].
    destruct (check_del E prof l _ _ _ _ _ _ C4) as (D1 & D2 & D3); [intros k c Hk; lia|].
    eexists. split; [reflexivity|]. split; [split; [discriminate|intros K; contradiction]|]. intros e' [= <-].
    destruct (Snd c0 l Hl0) as [Hnd Hw].
    assert (Hnew : forall d, In d new -> exists s, In s l /\ wanted prof s /\ create E td fuel true prof (s_ctx s) = Ok d /\ ~ has E (sem_id E s) ch1).
    { clear -F1. induction F1 as [|s e ss new (H2 & H3 & H & H4) _ IHF]; intros d Hd; [destruct Hd|]. destruct Hd as [<-|Hd]; [exists s; auto|]. apply IHF. exact Hd. }
    assert (Hnj : Forall (fun c => ~ junk c) (ch1 ++ new)).
    { apply Forall_app. split; apply Forall_forall; intros d Hd.
      - destruct (sub_in _ _ _ _ S1 d Hd) as (x & _ & Hx & Jx & _). intros J. apply Jx. apply (junk_kind x d (cleaned_kind _ _ Hx)). exact J.
      - destruct (Hnew d Hd) as (s & Hs & Ws & Cs & _). destruct (Hw s Hs Ws) as (W1 & W2 & W3). pose proof (create_kind E td _ _ _ _ _ Cs) as Kd.
        intros [J|[J|J]]; unfold kind_class, eid_of in J; rewrite Kd in J; contradiction. }
    assert (Hin4 : forall d, In d ch4 -> In d (ch1 ++ new)) by (exact (sub_eq_in _ _ _ D1)).
    split.
    + destruct (sub_app_inv _ _ _ _ _ D1) as (old & new' & -> & O1 & O2). eapply cleaned_master with (l := l).
      * destruct (_ =? _); exact Hk3.
      * exists c0. auto.
      * exact Hc1.
      * assert (T := sub_trans _ _ _ _ _ S1 _ O1). refine (sub_weaken _ _ _ _ _ _ _ _ T).
        -- intros x y [Hxy _]. exact Hxy.
        -- intros x [[Hx|Hx]|(y & (Hxy & _) & s & Hl & Hr)]; [left; exact Hx|right; left; exact Hx|]. right. right. exists s.
           assert (Hid : eid y = eid x) by (unfold eid_of; rewrite (cleaned_kind _ _ Hxy); reflexivity). unfold line in *. rewrite Hid in Hl, Hr. split; [exact Hl|exact Hr].
      * apply Forall_forall. intros d Hd. destruct (Hnew d (sub_eq_in _ _ _ O2 d Hd)) as (s & Hs & Ws & Cs & Nh). exists s. split; [exact Hs|]. split; [exact Ws|]. split; [exact (create_kind E td _ _ _ _ _ Cs)|].
        split; [exists fuel; exact Cs|]. intros c Hc Hid. destruct (sub_from _ _ _ _ S1 c Hc) as [J|(y & Hy & Hxy & _)]; [exact J|]. elim Nh. exists y. split; [exact Hy|]. unfold eid_of in *. rewrite (cleaned_kind _ _ Hxy). exact Hid.
    + constructor.
      * split; [cbn [einfo]; destruct (_ =? _); exact Hz3|]. split; [intros U; rewrite Hc1, U; reflexivity|]. split.
        -- apply Forall_forall. intros d Hd. rewrite Forall_forall in Hnj. apply Hnj. apply Hin4. exact Hd.
        -- exists l. split; [exists c0; split; [destruct (_ =? _); rewrite <- Hk0; exact Hk3|exact Hl0]|]. split; [|split].
           ++ intros s Hs Ws. apply D2; [|apply F3; assumption]. intros c s' Hc Hs'. apply sem_line in Hs'. rewrite (nodup_line l Hnd s c Hs (eq_sym Hc) s' Hs'). apply Ws.
           ++ intros a b c x d s -> Hid Hline. destruct (s_uniq s) eqn:U; [|reflexivity]. exfalso.
              assert (Hd : fine E prof l (a ++ c :: b ++ d :: x) d). { apply (D3 (length a + 1 + length b)%nat d); [lia|]. rewrite nth_error_app2 by lia. replace (length a + 1 + length b - length a)%nat with (S (length b)) by lia. cbn [nth_error].
                rewrite nth_error_app2 by lia. rewrite Nat.sub_diag. reflexivity. }
              assert (Dj : is_dummy E d = false). { assert (J : ~ junk d) by (rewrite Forall_forall in Hnj; apply Hnj; apply Hin4; apply in_app_iff; right; right; apply in_app_iff; right; left; reflexivity).
                unfold is_dummy. unfold ReduceSpec.junk in J. destruct (kind_class E (e_kind (einfo d))); try reflexivity. elim J. auto. }
              apply sem_line in Hline. rewrite (sem_same E l c d Hid) in Hline. destruct (Hd Dj s Hline) as [_ Hd2]. apply (second_none a b c d x Hid). rewrite Hid. exact (Hd2 U).
           ++ intros c1 c2 c3 c s -> Hline. assert (Hd : fine E prof l (c1 :: c2 ++ c :: c3) c). { apply (D3 (S (length c2)) c); [lia|]. cbn [nth_error]. rewrite nth_error_app2 by lia. rewrite Nat.sub_diag. reflexivity. }
              assert (Dj : is_dummy E c = false). { assert (J : ~ junk c) by (rewrite Forall_forall in Hnj; apply Hnj; apply Hin4; right; apply in_app_iff; right; left; reflexivity).
                unfold is_dummy. unfold ReduceSpec.junk in J. destruct (kind_class E (e_kind (einfo c))); try reflexivity. elim J. auto. }
              apply sem_line in Hline. exact (proj1 (Hd Dj s Hline)).
      * apply Forall_forall. intros d Hd. apply Hin4 in Hd. apply in_app_iff in Hd. destruct Hd as [Hd|Hd].
        -- rewrite Forall_forall in N1. apply N1. exact Hd.
        -- destruct (Hnew d Hd) as (s & _ & _ & Cs & _). exact (create_neat Snd _ _ _ Cs).
Qed.
End Main.
