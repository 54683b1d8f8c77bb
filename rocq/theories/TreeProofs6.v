(** Rendering what cannot be written. *)
From Verif Require Import Base BaseProofs VintSpec Vint EbmlId IntElt Crc EltHead Void Ebml Arr Stream Tree TreeSpec TreeProofs TreeProofs2.

Section R.
Context (E : schema) (narrow : Z -> Z) (flt_is : Z -> Z -> bool) (little : bool) (alloc : Z -> list Z) (wd : bool).
Notation update_size := (update_size E flt_is).
Notation render := (render E narrow flt_is little alloc).

Lemma blocked_default e : blocked E e -> is_default E flt_is e = Ok false.
Proof. intros H. destruct H as [i v _ H| |]; [|reflexivity..]. cbn. rewrite H. reflexivity. Qed.
Lemma blocked_in e : blocked E e -> left_out E flt_is wd e = Ok false.
Proof. intros H. unfold left_out. destruct wd; [reflexivity|apply blocked_default, H]. Qed.

(** The fields that matter are those of [i]. *)
Lemma blocked_info e i : e_set i = e_set (einfo e) -> e_kind i = e_kind (einfo e) -> blocked E e -> blocked E (with_info e i).
Proof.
  intros H1 H2 H. inversion H; subst; cbn [with_info einfo] in *.
  - apply blocked_leaf; [congruence|]. unfold default_of in *. rewrite H2. assumption.
  - apply blocked_master. congruence.
  - eapply blocked_child; eassumption.
Qed.
Lemma base_update_blocked e n e' : base_update E flt_is wd e = Ok (n, e') -> blocked E e -> blocked E e'.
Proof.
  unfold base_update. intros H Hb. rewrite (blocked_in e Hb) in H. cbn [bind] in H. injection H as _ <-. apply blocked_info; [..|exact Hb]; destruct (_ <? _); reflexivity.
Qed.
Lemma update_blocked e : forall n e', update_size wd e = Ok (n, e') -> blocked E e -> blocked E e'.
Proof.
  revert e. apply (elt_ind2 (fun e => forall n e', update_size wd e = Ok (n, e') -> blocked E e -> blocked E e')).
  - intros i v n e' H Hb. cbn [Tree.update_size] in H. destruct (leaf_size E flt_is wd i v) as [| | |i'] eqn:El; try discriminate H. cbn [bind] in H.
    eapply base_update_blocked; [exact H|]. change (Leaf i' v) with (with_info (Leaf i v) i'). 
    assert (e_set i' = e_set i /\ e_kind i' = e_kind i) as [Ha Hc].
    { unfold leaf_size in El. destruct (needs_update _ _ _ _) as [| | |b]; try discriminate El. cbn [bind] in El.
      destruct (kind_class E (e_kind i)), v; try (injection El as <-; auto; destruct b; auto; fail);
        (destruct b; [|injection El as <-; auto; fail]); match type of El with context [match ?s with Some _ => _ | None => _ end] => destruct s as [s1|]; [|discriminate El] end;
        match type of El with bind ?y _ = _ => destruct y as [| | |t]; try discriminate El end; cbn [bind] in El; injection El as <-; auto. }
    apply blocked_info; assumption.
  - intros i chk ch IH n e' H Hb. cbn [Tree.update_size] in H. destruct (needs_update _ _ _ _) as [| | |b]; try discriminate H. cbn [bind] in H.
    destruct b; [|eapply base_update_blocked; eassumption].
    match type of H with bind ?x _ = _ => destruct x as [| | |[[k s] ch']] eqn:Es; try discriminate H end. cbn [bind] in H.
    assert (Hch : forall c, In c ch -> blocked E c -> exists c', In c' ch' /\ blocked E c').
    { clear H Hb. revert Es. generalize (if chk =? 0 then 0 else 6). revert k s ch'. induction ch as [|x ch IHc]; intros k s ch' a Es c Hin Hb; [contradiction|].
      apply Forall_cons_iff in IH. destruct IH as [Hx IH]. specialize (IHc IH). destruct (left_out E flt_is wd x) as [| | |d] eqn:Ed; try discriminate Es. cbn [bind] in Es. destruct d.
      - match type of Es with bind ?y _ = _ => destruct y as [| | |[[k1 s1] l1]] eqn:E1; try discriminate Es end. cbn [bind] in Es. injection Es as <- <- <-.
        destruct Hin as [<-|Hin]; [rewrite blocked_in in Ed by exact Hb; discriminate|]. destruct (IHc _ _ _ _ E1 c Hin Hb) as (c' & H1 & H2). exists c'. split; [right; exact H1|exact H2].
      - destruct (update_size wd x) as [| | |[u x']] eqn:Eu; try discriminate Es. cbn [bind snd] in Es.
        destruct (e_dsize (einfo x') =? INVALID_FILEPOS).
        + injection Es as _ _ <-. destruct Hin as [<-|Hin]; [exists x'; split; [left; reflexivity|eapply Hx; [reflexivity|exact Hb]]|exists c; split; [right; exact Hin|exact Hb]].
        + destruct (full_size_of E flt_is wd x') as [| | |f]; try discriminate Es. cbn [bind] in Es.
          match type of Es with bind ?y _ = _ => destruct y as [| | |[[k1 s1] l1]] eqn:E1; try discriminate Es end. cbn [bind] in Es. injection Es as _ _ <-.
          destruct Hin as [<-|Hin]; [exists x'; split; [left; reflexivity|eapply Hx; [reflexivity|exact Hb]]|].
          destruct (IHc _ _ _ _ E1 c Hin Hb) as (c' & H1 & H2). exists c'. split; [right; exact H1|exact H2]. }
    assert (Hm : blocked E (Master (with_dsize i s) chk ch')).
    { inversion Hb; subst; [apply blocked_master; assumption|]. destruct (Hch c) as (c' & K1 & K2); try assumption. exact (blocked_child E _ _ _ c' K1 K2). }
    destruct k; [eapply base_update_blocked; eassumption|injection H as _ <-; exact Hm].
Qed.


(** The update keeps the flag and the shape. *)
Definition top (e e' : elt) : Prop := e_set (einfo e') = e_set (einfo e) /\ match e, e' with Leaf _ _, Leaf _ _ | Master _ _ _, Master _ _ _ => True | _, _ => False end.
Lemma base_update_top e n e' : base_update E flt_is wd e = Ok (n, e') -> top e e'.
Proof.
  unfold base_update. destruct (left_out _ _ _ _) as [| | |d]; try discriminate. cbn [bind]. destruct d; intros H; injection H as _ <-; destruct e as [i v|i c l]; split; try exact I; try reflexivity;
    cbn [einfo with_info]; destruct (_ <? _); reflexivity.
Qed.
Lemma update_top e n e' : update_size wd e = Ok (n, e') -> top e e'.
Proof.
  destruct e as [i v|i chk ch]; cbn [Tree.update_size].
  - destruct (leaf_size E flt_is wd i v) as [| | |i'] eqn:El; try discriminate. cbn [bind]. intros H. apply base_update_top in H. destruct H as [H1 H2]. split; [rewrite H1; cbn [einfo]|destruct e'; [exact I|contradiction]].
    unfold leaf_size in El. destruct (needs_update _ _ _ _) as [| | |b]; try discriminate El. cbn [bind] in El.
    destruct (kind_class E (e_kind i)), v; try (injection El as <-; auto; destruct b; auto; fail);
        (destruct b; [|injection El as <-; auto; fail]); match type of El with context [match ?s with Some _ => _ | None => _ end] => destruct s as [s1|]; [|discriminate El] end;
        match type of El with bind ?y _ = _ => destruct y as [| | |t]; try discriminate El end; cbn [bind] in El; injection El as <-; auto.
  - destruct (needs_update _ _ _ _) as [| | |b]; try discriminate. cbn [bind]. destruct b; [|apply base_update_top].
    match goal with |- bind ?x _ = _ -> _ => destruct x as [| | |[[k s] ch']]; try discriminate end. cbn [bind]. destruct k; [|intros H; injection H as _ <-; split; reflexivity || exact I].
    intros H. apply base_update_top in H. destruct H as [H1 H2]. split; [rewrite H1; reflexivity|destruct e'; [contradiction|exact I]].
Qed.

Lemma render_blocked : forall fuel e keep o err n e' o', blocked E e -> render fuel wd keep e o = Ok (err, n, e', o') -> err <> ERR_NONE.
Proof.
  intros fuel. induction fuel as [fuel IH] using lt_wf_ind. intros e keep o err n e' o' Hb H.
  assert (Hu : exists body, render fuel wd keep e o = body) by (eexists; reflexivity).
  destruct fuel as [|fuel]; cbn [Tree.render] in H; rewrite (blocked_default e Hb) in H; cbn [bind] in H; rewrite !andb_false_r, orb_false_r in H;
    (destruct (e_set (einfo e)) eqn:Es; cbn [negb] in H; [|injection H as <- _ _ _; discriminate]);
    (destruct (needs_update E flt_is wd e) as [| | |nd]; try discriminate H; cbn [bind] in H);
    (match type of H with bind ?x _ = _ => destruct x as [| | |e1] eqn:Eu; try discriminate H end; cbn [bind] in H);
    (assert (Hb1 : blocked E e1 /\ top e e1) by
      (destruct nd; [|injection Eu as <-; split; [exact Hb|split; [reflexivity|destruct e; exact I]]];
       destruct (update_size wd e) as [| | |[u e2]] eqn:Ez; try discriminate Eu; injection Eu as <-; split; [eapply update_blocked; eassumption|eapply update_top; eassumption]));
    destruct Hb1 as [Hb1 [Ht1 Ht2]];
    (destruct (render_head_to E keep (einfo e1) o) as [| | |[[[er hd] i] o1]]; try discriminate H; cbn [bind] in H);
    (destruct (er =? ERR_NONE) eqn:Er; cbn [negb] in H; [|injection H as <- _ _ _; intros ->; discriminate Er]);
    (destruct e1 as [i1 v1|i1 chk ch]; cbn [with_info] in H; [exfalso; inversion Hb1; subst; cbn [einfo] in *; congruence|]).
  - discriminate H.
  - assert (Hc : exists c, In c ch /\ blocked E c) by (inversion Hb1; subst; cbn [einfo] in *; [congruence|eexists; split; eassumption]).
    match type of H with context [if chk =? 0 then bind (?f ch 0 o1) _ else _] => set (inner := f) in * end.
    assert (Hin : forall l rd o er rd' l' o', (exists c, In c l /\ blocked E c) -> inner l rd o = Ok (er, rd', l', o') -> er <> ERR_NONE).
    { clear H. induction l as [|x l IHl]; intros rd o2 er2 rd2 l2 o3 (c & Hi & Hbc) Hx; [contradiction|]. unfold inner in Hx. fold inner in Hx.
      destruct (left_out E flt_is wd x) as [| | |d] eqn:Ed; try discriminate Hx. cbn [bind] in Hx. destruct d.
      - destruct Hi as [<-|Hi]; [rewrite blocked_in in Ed by exact Hbc; discriminate|]. destruct (inner l rd o2) as [| | |[[[er3 rd3] l3] o4]] eqn:E3; try discriminate Hx. cbn [bind] in Hx. injection Hx as <- _ _ _.
        eapply IHl; [|exact E3]. exists c. auto.
      - destruct (render fuel wd false x o2) as [| | |[[[er3 n3] x3] o4]] eqn:E3; try discriminate Hx. cbn [bind] in Hx. destruct (er3 =? ERR_NONE) eqn:Er3; cbn [negb] in Hx; [|injection Hx as <- _ _ _; intros ->; discriminate Er3].
        destruct Hi as [<-|Hi]; [exfalso; eapply (IH fuel); [apply Nat.lt_succ_diag_r|exact Hbc|exact E3|apply Z.eqb_eq; exact Er3]|].
        destruct (inner l (rd + n3) o4) as [| | |[[[er5 rd5] l5] o5]] eqn:E5; try discriminate Hx. cbn [bind] in Hx. injection Hx as <- _ _ _. eapply IHl; [|exact E5]. exists c. auto. }
    destruct (chk =? 0).
    { destruct (inner ch 0 o1) as [| | |[[[er3 n3] l3] o3]] eqn:E3; try discriminate H. cbn [bind] in H. injection H as <- _ _ _. eapply Hin; [exact Hc|exact E3]. }
    destruct (negb (o_is_mem o1)).
    { destruct (e_dsize i - 6 <? 0); [injection H as <- _ _ _; discriminate|].
      destruct (inner ch 0 _) as [| | |[[[er3 n3] l3] o3]] eqn:E3; try discriminate H. cbn [bind] in H. pose proof (Hin _ _ _ _ _ _ _ Hc E3) as Hne.
      destruct (er3 =? ERR_NONE) eqn:Er3; [apply Z.eqb_eq in Er3; contradiction|]. cbn [negb] in H. injection H as <- _ _ _. exact Hne. }
    destruct (o_seek_cur o1 6) as [vpos o2]. destruct (inner ch 0 o2) as [| | |[[[er3 n3] l3] o3]] eqn:E3; try discriminate H. cbn [bind] in H. pose proof (Hin _ _ _ _ _ _ _ Hc E3) as Hne.
    destruct (er3 =? ERR_NONE) eqn:Er3; [apply Z.eqb_eq in Er3; contradiction|]. cbn [negb] in H. injection H as <- _ _ _. exact Hne.
Qed.
End R.
