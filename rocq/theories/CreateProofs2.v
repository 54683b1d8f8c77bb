(** Copies are written as the same bytes; reports of the context check. *)
From Verif Require Import Base BaseProofs Vint EbmlId IntElt EltHead Ebml Arr ArrProofs2 Stream StreamProofs Tree TreeRead TreeSpec TreeProofs TreeProofs2 Create CreateSpec CreateProofs.

Section Alike.
Context (E : schema) (narrow : Z -> Z) (flt_is : Z -> Z -> bool) (wd : bool).
Notation omitted := (omitted E flt_is wd).
Notation psize := (psize E flt_is wd).
Notation fsize := (fsize E flt_is wd).
Notation out := (out E narrow flt_is wd).
Notation writable := (writable E narrow flt_is wd).

Lemma alike_str (v v' : val) : match v with VStr (Some b) => exists s r r', b = s ++ 0 :: r /\ v' = VStr (Some (s ++ 0 :: r')) /\ ~ In 0 s | _ => v' = v end ->
  v' = v \/ exists s r r', v = VStr (Some (s ++ 0 :: r)) /\ v' = VStr (Some (s ++ 0 :: r')) /\ ~ In 0 s.
Proof. destruct v as [| |[b|]| | |]; auto. intros (s & r & r' & -> & -> & H). right. exists s, r, r'. auto. Qed.

Lemma alike_omitted e e' : alike e e' -> omitted e' = omitted e.
Proof.
  intros H. inversion H as [i v v' Hv|]; subst; [|reflexivity]. destruct (alike_str _ _ Hv) as [->|(s & r & r' & -> & -> & Hn)]; [reflexivity|].
  unfold TreeSpec.omitted. destruct (default_of E i) as [[y|t]|]; try reflexivity. destruct (kind_class E (e_kind i)); try reflexivity; rewrite !cstr_join by exact Hn; reflexivity.
Qed.
Lemma alike_einfo e e' : alike e e' -> e_kind (einfo e') = e_kind (einfo e) /\ e_szlen (einfo e') = e_szlen (einfo e) /\ e_fin (einfo e') = e_fin (einfo e).
Proof. intros H. inversion H; subst; cbn [einfo]; auto. Qed.
Lemma alike_leaf_psize i v v' : alike (Leaf i v) (Leaf i v') -> leaf_psize E i v' = leaf_psize E i v.
Proof.
  intros H. inversion H as [? ? ? Hv|]; subst. destruct (alike_str _ _ Hv) as [->|(s & r & r' & -> & -> & Hn)]; [reflexivity|].
  unfold leaf_psize. destruct (kind_class E (e_kind i)); try reflexivity; rewrite !cstr_join by exact Hn; reflexivity.
Qed.
Lemma alike_psize e : forall e', alike e e' -> psize e' = psize e.
Proof.
  induction e as [i v|i chk ch IH] using elt_ind2; intros e' H.
  - inversion H; subst. cbn [TreeSpec.psize]. apply alike_leaf_psize. exact H.
  - inversion H as [|? i' ? ? ch' H1 H2 H3 H4 H5 H6 H7 HF]; subst. rewrite !psize_master. f_equal. clear -IH HF.
    induction HF as [|c c' ch ch' Hc HF IHF]; [reflexivity|]. apply Forall_cons_iff in IH. destruct IH as [IHc IH].
    cbn [psum fold_right]. change (fold_right _ 0 ch') with (psum E flt_is wd ch'). change (fold_right _ 0 ch) with (psum E flt_is wd ch).
    rewrite (IHF IH), (alike_omitted _ _ Hc). unfold TreeSpec.fsize, eid_of. rewrite (IHc _ Hc). destruct (alike_einfo _ _ Hc) as (-> & -> & ->). reflexivity.
Qed.
Lemma alike_fsize e e' : alike e e' -> fsize e' = fsize e.
Proof. intros H. unfold TreeSpec.fsize, eid_of. rewrite (alike_psize _ _ H). destruct (alike_einfo _ _ H) as (-> & -> & ->). reflexivity. Qed.

Lemma alike_leaf_out i v v' : alike (Leaf i v) (Leaf i v') -> leaf_out E narrow i v' = leaf_out E narrow i v.
Proof.
  intros H. unfold leaf_out. rewrite (alike_leaf_psize _ _ _ H). inversion H as [? ? ? Hv|]; subst. destruct (alike_str _ _ Hv) as [->|(s & r & r' & -> & -> & Hn)]; [reflexivity|].
  unfold leaf_psize, leaf_bytes. cbn [sinfo with_need with_dsize e_kind e_dsize e_defsz].
  destruct (kind_class E (e_kind i)) eqn:K; try reflexivity; rewrite cstr_join by exact Hn;
    (destruct (zlen s =? 0) eqn:Z0; [reflexivity|];
     assert (G : forall r, mem_get (s ++ 0 :: r) 0 (zlen s) = Some s) by
       (intros r0; apply (mem_get_ok [] s (0 :: r0)));
     rewrite !G; reflexivity).
Qed.
Lemma alike_head e e' : alike e e' -> head E flt_is wd e' = head E flt_is wd e.
Proof. intros H. unfold head, eid_of. rewrite (alike_psize _ _ H). destruct (alike_einfo _ _ H) as (-> & -> & ->). reflexivity. Qed.
Lemma alike_out e : forall e', alike e e' -> out e' = out e.
Proof.
  induction e as [i v|i chk ch IH] using elt_ind2; intros e' H.
  - assert (Hh := alike_head _ _ H). inversion H; subst. cbn [TreeProofs2.out]. rewrite Hh, (alike_leaf_out _ _ _ H). reflexivity.
  - assert (Hh := alike_head _ _ H). inversion H as [|? i' ? ? ch' H1 H2 H3 H4 H5 H6 H7 HF]; subst. rewrite !out_master, Hh. f_equal.
    enough (G : outs E narrow flt_is wd ch' = outs E narrow flt_is wd ch) by (rewrite G; reflexivity). clear -IH HF.
    induction HF as [|c c' ch ch' Hc HF IHF]; [reflexivity|]. apply Forall_cons_iff in IH. destruct IH as [IHc IH].
    unfold outs. cbn [flat_map]. fold (outs E narrow flt_is wd ch'). fold (outs E narrow flt_is wd ch). rewrite (IHF IH), (alike_omitted _ _ Hc), (IHc _ Hc). reflexivity.
Qed.

Lemma alike_writable e : forall e', alike e e' -> writable e -> writable e'.
Proof.
  induction e as [i v|i chk ch IH] using elt_ind2; intros e' H Hw.
  - assert (Ho := alike_omitted _ _ H). assert (Hps := alike_psize _ _ H). inversion H as [? ? v' Hv|]; subst. destruct Hw as (W1 & W2 & W3).
    split; [exact W1|]. assert (Hp := alike_leaf_psize _ _ _ H). destruct (alike_str _ _ Hv) as [->|(s & r & r' & -> & -> & Hn)]; [split; assumption|]. split.
    + unfold val_ok in *. destruct (kind_class E (e_kind i)); try exact W2; (intros Hs; destruct (W2 Hs) as (b' & s' & Eb & Es & Hb); injection Eb as <-; rewrite cstr_join in Es by exact Hn;
        injection Es as <-; exists (s ++ 0 :: r'), s; rewrite cstr_join by exact Hn; auto).
    + intros Ho'. rewrite Ho in Ho'. destruct (W3 Ho') as (W4 & W5 & W6 & W7 & W8). rewrite Hps. split; [exact W4|]. split; [exact W5|]. split; [|auto].
      unfold defsz_ok in *. rewrite Hp. destruct (kind_class E (e_kind i)); exact W6.
  - assert (Hps := alike_psize _ _ H). inversion H as [|? i' ? ? ch' H1 H2 H3 H4 H5 H6 H7 HF]; subst. destruct Hw as (W1 & W2 & W3 & W4 & W5 & W6). cbn [TreeSpec.writable]. rewrite Hps.
    split; [destruct H5 as [->|[-> _]]; [exact W1|reflexivity]|]. split; [lia|]. split; [unfold head_ok, eid_of in *; rewrite H1, H3; exact W3|].
    split; [destruct H6 as [->| ->]; [rewrite H4; exact W4|left; reflexivity]|]. split; [rewrite H2, H3; exact W5|]. clear -IH HF W6.
    induction HF as [|c c' ch ch' Hc HF IHF]; [exact I|]. apply Forall_cons_iff in IH. destruct IH as [IHc IH]. destruct W6 as [Wc W6]. split; [apply IHc; assumption|apply IHF; assumption].
Qed.
End Alike.

Section Check.
Context (E : schema) (prof : Z) (l : list sem).

Definition rep (ch : list elt) (c : elt) : list report :=
  if is_dummy E c then [] else match sem_of E l c with
  | None => []
  | Some s => (if Z.land (s_dis s) prof =? 0 then [] else [RProfile c]) ++
              match (if s_uniq s then second_child E (c_id (E (s_ctx s))) ch else None) with None => [] | Some d => [RMultiple d] end
  end.
Lemma check_quiet f : (forall r, f r = false) -> forall fuel ch n acc, (length ch - n <= fuel)%nat ->
  check_children E fuel (Some f) prof l ch n acc = Some (ch, rev acc ++ flat_map (rep ch) (skipn n ch)).
Proof.
  intros Hf. induction fuel as [|fuel IH]; intros ch n acc Hl.
  - assert (Hn : nth_error ch n = None) by (apply nth_error_None; lia). cbn [check_children]. rewrite Hn. rewrite skipn_all2 by lia. cbn [flat_map]. rewrite app_nil_r. reflexivity.
  - cbn [check_children]. destruct (nth_error ch n) as [c|] eqn:Hn.
    + assert (Hs : skipn n ch = c :: skipn (S n) ch).
      { clear -Hn. revert ch Hn. induction n as [|n IHn]; intros [|d ch] Hn; try discriminate; cbn in *; [congruence|apply IHn; exact Hn]. }
      rewrite Hs. cbn [flat_map]. assert (Hlt : (n < length ch)%nat) by (apply nth_error_Some; congruence).
      assert (IH' : forall acc, check_children E fuel (Some f) prof l ch (S n) acc = Some (ch, rev acc ++ flat_map (rep ch) (skipn (S n) ch))) by (intros; apply IH; lia).
      unfold rep at 1. destruct (is_dummy E c); [apply IH'|]. destruct (sem_of E l c) as [s|]; [|apply IH']. rewrite !Hf. clear IH.
      destruct (Z.land (s_dis s) prof =? 0); cbn [negb app]; (destruct (if s_uniq s then _ else None) as [d|]; rewrite ?Hf; cbn [app]; rewrite IH'; cbn [rev]; rewrite <- ?app_assoc; reflexivity).
    + apply nth_error_None in Hn. rewrite skipn_all2 by lia. cbn [flat_map]. rewrite app_nil_r. reflexivity.
Qed.
Lemma check_null : forall fuel ch n acc, (length ch - n <= fuel)%nat -> check_children E fuel None prof l ch n acc = Some (ch, rev acc).
Proof.
  induction fuel as [|fuel IH]; intros ch n acc Hl; cbn [check_children].
  - assert (Hn : nth_error ch n = None) by (apply nth_error_None; lia). rewrite Hn. reflexivity.
  - destruct (nth_error ch n) as [c|] eqn:Hn; [|reflexivity]. assert (Hlt : (n < length ch)%nat) by (apply nth_error_Some; congruence).
    assert (IH' : check_children E fuel None prof l ch (S n) acc = Some (ch, rev acc)) by (apply IH; lia).
    destruct (is_dummy E c); [apply IH'|]. destruct (sem_of E l c) as [s|]; [|apply IH']. destruct (negb _); (destruct (if s_uniq s then _ else None); exact IH').
Qed.
Lemma remove_nth_length (ch : list elt) : forall n, (n < length ch)%nat -> length (remove_nth n ch) = (length ch - 1)%nat.
Proof. intros n Hn. unfold remove_nth. rewrite app_length, firstn_length, skipn_length. lia. Qed.
Lemma remove_nth_incl n (ch : list elt) : incl (remove_nth n ch) ch.
Proof. intros x Hx. unfold remove_nth in Hx. apply in_app_iff in Hx. rewrite <- (firstn_skipn n ch). apply in_app_iff. destruct Hx as [Hx|Hx]; [left; exact Hx|right].
  rewrite <- (firstn_skipn 1 (skipn n ch)). apply in_app_iff. right. replace (skipn (S n) ch) with (skipn 1 (skipn n ch)) in Hx; [exact Hx|].
  clear. revert ch. induction n as [|n IH]; intros [|c ch]; cbn; auto. apply IH. Qed.
Lemma check_total cb : forall fuel ch n acc, (length ch * S (length ch) + (length ch - n) <= fuel)%nat ->
  exists ch' r, check_children E fuel cb prof l ch n acc = Some (ch', r) /\ incl ch' ch.
Proof.
  induction fuel as [|fuel IH]; intros ch n acc Hl; cbn [check_children].
  - assert (Hn : nth_error ch n = None) by (apply nth_error_None; lia). rewrite Hn. eexists; eexists; split; [reflexivity|apply incl_refl].
  - destruct (nth_error ch n) as [c|] eqn:Hn; [|eexists; eexists; split; [reflexivity|apply incl_refl]]. assert (Hlt : (n < length ch)%nat) by (apply nth_error_Some; congruence).
    assert (IH1 : forall acc, exists ch' r, check_children E fuel cb prof l ch (S n) acc = Some (ch', r) /\ incl ch' ch) by (intros; apply IH; lia).
    assert (IH2 : forall acc, exists ch' r, check_children E fuel cb prof l (remove_nth n ch) (match remove_nth n ch with [] => O | _ => 1%nat end) acc = Some (ch', r) /\ incl ch' ch).
    { intros a. destruct (IH (remove_nth n ch) (match remove_nth n ch with [] => O | _ => 1%nat end) a) as (ch' & r & H1 & H2).
      - rewrite (remove_nth_length ch n Hlt). destruct (remove_nth n ch); nia.
      - exists ch', r. split; [exact H1|]. eapply incl_tran; [exact H2|apply remove_nth_incl]. }
    destruct (is_dummy E c); [apply IH1|]. destruct (sem_of E l c) as [s|]; [|apply IH1]. cbv zeta.
    destruct (negb (Z.land (s_dis s) prof =? 0)); destruct cb as [f|]; cbv iota beta;
      try (destruct (f (RProfile c)); [apply IH2|]); (destruct (if s_uniq s then _ else None) as [d|]; [|apply IH1]); try apply IH1; (destruct (f (RMultiple d)); [apply IH2|apply IH1]).
Qed.
End Check.
