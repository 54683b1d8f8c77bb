From Verif Require Import Base BaseProofs VintSpec EbmlIdSpec CrcSpec IntEltSpec Vint VintProofs EbmlId EbmlIdProofs IntElt IntEltProofs
  Crc CrcProofs EltHead Void VoidProofs Ebml Arr ArrProofs Stream StreamProofs FinderSpec Tree TreeSpec.

(** ** Induction *)
Fixpoint elt_ind2 (P : elt -> Prop) (HL : forall i v, P (Leaf i v)) (HM : forall i chk ch, Forall P ch -> P (Master i chk ch)) (e : elt) : P e :=
  match e with
  | Leaf i v => HL i v
  | Master i chk ch =>
      HM i chk ch ((fix all (l : list elt) : Forall P l :=
        match l with [] => Forall_nil P | c :: l => Forall_cons c (elt_ind2 P HL HM c) (all l) end) ch)
  end.

Lemma s64_eq x y : is_int64 y -> (x =? s64 y) = (x =? y).
Proof. intros H. rewrite s64_small by assumption. reflexivity. Qed.

Lemma info_eta i d : e_need i = false -> e_dsize i = d -> with_need (with_dsize i d) false = i.
Proof. intros H1 H2. destruct i. cbn in *. subst. reflexivity. Qed.

Section P.
Context (E : schema) (narrow : Z -> Z) (flt_is : Z -> Z -> bool) (wd : bool).
Notation left_out := (left_out E flt_is wd).
Notation is_default := (is_default E flt_is).
Notation omitted := (omitted E flt_is wd).
Notation psize := (psize E flt_is wd).
Notation fsize := (fsize E flt_is wd).
Notation writable := (writable E narrow flt_is wd).
Notation needs_update := (needs_update E flt_is wd).
Notation update_size := (update_size E flt_is wd).
Notation leaf_psize := (leaf_psize E).

Definition typed (e : elt) : Prop := match e with Leaf i v => def_ok E i /\ val_ok E i v | Master _ _ _ => True end.
Lemma writable_typed e : writable e -> typed e.
Proof. destruct e; cbn; tauto. Qed.

Lemma left_out_ok e : typed e -> left_out e = Ok (omitted e).
Proof.
  unfold Tree.left_out, TreeSpec.omitted. destruct wd; [reflexivity|]. cbn [negb andb].
  destruct e as [i v|]; [|reflexivity]. cbn [typed Tree.is_default]. intros [Hd Hv]. unfold def_ok, val_ok in *.
  destruct (default_of E i) as [d|]; [|reflexivity].
  destruct (kind_class E (e_kind i)); destruct v; try contradiction; destruct d; try contradiction; try reflexivity;
    try (rewrite s64_eq by assumption; reflexivity);
    (destruct (e_set i); cbn [negb orb]; [|reflexivity]); try reflexivity;
    destruct (Hv eq_refl) as (b & s' & -> & Hs & _); rewrite Hs; reflexivity.
Qed.

(** needs_update as a boolean. *)
Fixpoint needsb (e : elt) : bool :=
  (e_need (einfo e) && negb (omitted e)) ||
  match e with
  | Leaf _ _ => false
  | Master _ _ ch => (fix any (l : list elt) : bool := match l with [] => false | c :: l => needsb c || any l end) ch
  end.

Lemma writable_master i chk ch : writable (Master i chk ch) -> e_set i = true /\ e_defsz i <= 0 /\ head_ok E i (psize (Master i chk ch)) /\
  (e_need i = true \/ e_dsize i = psize (Master i chk ch)) /\ (chk = 0 \/ e_fin i = true \/ 1 <= e_szlen i) /\ Forall writable ch.
Proof.
  cbn [TreeSpec.writable einfo]. intros (H1 & H2 & H3 & H4 & H5 & H6). do 5 (split; [assumption|]).
  revert H6. clear. induction ch as [|c l IH]; intros H; constructor; [apply H|apply IH, H].
Qed.

Lemma base_needs_ok e : typed e -> base_needs E flt_is wd e = Ok (e_need (einfo e) && negb (omitted e)).
Proof.
  intros H. unfold base_needs. destruct (e_need (einfo e)); [|reflexivity]. cbn [negb]. rewrite left_out_ok by assumption. reflexivity.
Qed.

Lemma needs_update_ok e : writable e -> needs_update e = Ok (needsb e).
Proof.
  revert e. apply (elt_ind2 (fun e => writable e -> needs_update e = Ok (needsb e))).
  - intros i v H. cbn [Tree.needs_update needsb]. rewrite base_needs_ok by (apply writable_typed; assumption). cbn [bind].
    destruct (_ && _); reflexivity.
  - intros i chk ch IH H. cbn [Tree.needs_update needsb]. rewrite base_needs_ok by exact I. cbn [bind].
    destruct (_ && _); [reflexivity|]. apply writable_master in H. destruct H as (_ & _ & _ & _ & _ & H).
    cbn [orb]. revert IH H. induction ch as [|c l IHl]; intros IH H; [reflexivity|].
    apply Forall_cons_iff in IH, H. destruct IH as [IH1 IH2], H as [H1 H2]. rewrite IH1 by assumption. cbn [bind].
    destruct (needsb c); [reflexivity|]. cbn [orb]. apply IHl; assumption.
Qed.

(** The element after its size was updated. *)
Fixpoint sized (e : elt) : elt :=
  match e with
  | Leaf i v => Leaf (with_need (with_dsize i (leaf_psize i v)) false) v
  | Master i chk ch => Master (with_need (with_dsize i (psize e)) false) chk (map (fun c => if omitted c then c else sized c) ch)
  end.

Lemma omitted_info e i : e_kind i = e_kind (einfo e) -> e_set i = e_set (einfo e) -> omitted (with_info e i) = omitted e.
Proof.
  intros H1 H2. unfold TreeSpec.omitted, default_of. destruct e as [j v|]; cbn [with_info einfo] in *; [|reflexivity].
  rewrite H1, H2. reflexivity.
Qed.
Lemma omitted_sized e : omitted (sized e) = omitted e.
Proof. destruct e as [i v|i chk ch]; reflexivity. Qed.

Definition psum (l : list elt) : Z := fold_right (fun c s => (if omitted c then 0 else fsize c) + s) 0 l.
Lemma psize_master i chk ch : psize (Master i chk ch) = (if chk =? 0 then 0 else 6) + psum ch.
Proof. reflexivity. Qed.

Lemma leaf_psize_sized i v : leaf_psize (with_need (with_dsize i (leaf_psize i v)) false) v = leaf_psize i v.
Proof.
  clear narrow flt_is wd.
  unfold TreeSpec.leaf_psize at 1. cbn [e_kind e_defsz e_dsize with_need with_dsize]. unfold TreeSpec.leaf_psize.
  destruct (kind_class E (e_kind i)), v; try reflexivity; try lia; destruct buf; reflexivity.
Qed.

Lemma psize_sized e : psize (sized e) = psize e.
Proof.
  revert e. apply (elt_ind2 (fun e => psize (sized e) = psize e)).
  - intros i v. apply leaf_psize_sized.
  - intros i chk ch IH. cbn [sized]. rewrite !psize_master. f_equal. induction ch as [|c l IHl]; [reflexivity|].
    apply Forall_cons_iff in IH. destruct IH as [IH1 IH2]. cbn [map psum fold_right]. fold (psum l). rewrite <- (IHl IH2). f_equal.
    destruct (omitted c) eqn:Ec; [rewrite Ec; reflexivity|]. rewrite omitted_sized, Ec. unfold TreeSpec.fsize. rewrite IH1.
    destruct c; reflexivity.
Qed.
Lemma fsize_sized e : fsize (sized e) = fsize e.
Proof. unfold TreeSpec.fsize. rewrite psize_sized. destruct e; reflexivity. Qed.

Lemma sized_fix e : writable e -> omitted e = false -> needsb e = false -> sized e = e.
Proof.
  revert e. apply (elt_ind2 (fun e => writable e -> omitted e = false -> needsb e = false -> sized e = e)).
  - intros i v (Hd & Hv & H) Ho Hn. destruct (H Ho) as (_ & _ & _ & _ & H5). cbn [needsb einfo] in Hn. rewrite Ho in Hn.
    cbn [sized]. f_equal. apply info_eta; [destruct (e_need i); [discriminate|reflexivity]|].
    destruct H5 as [H5|H5]; [rewrite H5 in Hn; discriminate|exact H5].
  - intros i chk ch IH H Ho Hn. pose proof (writable_master _ _ _ H) as (_ & _ & _ & H4 & _ & H6).
    cbn [needsb einfo] in Hn. rewrite Ho in Hn. apply orb_false_iff in Hn. destruct Hn as [Hn1 Hn2].
    assert (e_need i = false) by (destruct (e_need i); [discriminate|reflexivity]).
    assert (Hm : map (fun c => if omitted c then c else sized c) ch = ch).
    { clear H Ho H4 Hn1. revert IH H6 Hn2. induction ch as [|c l IHl]; intros IH H6 Hn2; [reflexivity|].
      apply Forall_cons_iff in IH, H6. destruct IH as [IH1 IH2], H6 as [H7 H8].
      apply orb_false_iff in Hn2. destruct Hn2 as [Hn2 Hn3]. cbn [map].
      f_equal; [|apply IHl; assumption]. destruct (omitted c) eqn:Ec; [reflexivity|]. apply IH1; auto. }
    cbn [sized]. rewrite Hm. f_equal. apply info_eta; [assumption|]. destruct H4 as [H4|H4]; [congruence|exact H4].
Qed.

Lemma fsize_nonneg e : writable e -> omitted e = false -> 0 <= psize e /\ psize e < fsize e /\ head_ok E (einfo e) (psize e).
Proof.
  intros H Ho. assert (Hh : head_ok E (einfo e) (psize e)).
  { destruct e as [i v|i chk ch]; [destruct H as (_ & _ & H); apply H, Ho|apply writable_master in H; apply H]. }
  split; [apply Hh|]. split; [|exact Hh]. destruct Hh as ((n & Hid) & Hs & Hp). unfold TreeSpec.fsize, full_size.
  destruct (get_id_length_ok _ _ Hid). destruct Hid as [Hid _].
  destruct (e_fin (einfo e)); [pose proof (csl_range (psize e) (e_szlen (einfo e)))|rewrite coded_size_length_unknown by lia]; lia.
Qed.

Lemma full_size_of_sized e : typed e -> omitted e = false -> full_size_of E flt_is wd (sized e) = Ok (fsize e).
Proof.
  intros Ht Ho. unfold full_size_of. rewrite left_out_ok; [|destruct e; exact Ht]. rewrite omitted_sized, Ho. cbn [bind].
  destruct e; reflexivity.
Qed.

Lemma base_update_ok e d : typed e -> omitted e = false -> e_dsize (einfo e) <= d -> e_defsz (einfo e) <= d ->
  (e_dsize (einfo e) = d \/ e_defsz (einfo e) = d) ->
  base_update E flt_is wd e = Ok (d, with_info e (with_need (with_dsize (einfo e) d) false)).
Proof.
  intros Ht Ho H1 H2 H3. unfold base_update. rewrite left_out_ok by assumption. rewrite Ho. cbn [bind].
  destruct (e_dsize (einfo e) <? e_defsz (einfo e)) eqn:Ed.
  - assert (e_defsz (einfo e) = d) by lia. subst d. destruct e as [i v|i ? ?]; destruct i; reflexivity.
  - assert (e_dsize (einfo e) = d) by lia. subst d. destruct e as [i v|i ? ?]; destruct i; reflexivity.
Qed.


Lemma update_leaf i v : writable (Leaf i v) -> omitted (Leaf i v) = false ->
  update_size (Leaf i v) = Ok (leaf_psize i v, sized (Leaf i v)).
Proof.
  intros H Ho. pose proof (writable_typed _ H) as Ht. pose proof H as (Hd & Hv & H1). specialize (H1 Ho).
  destruct H1 as (Hs & Hf & Hdz & Hh & Hn). cbn [TreeSpec.psize] in Hn, Hh.
  cbn [Tree.update_size]. unfold leaf_size. rewrite needs_update_ok by assumption. cbn [bind].
  assert (Hnb : needsb (Leaf i v) = e_need i) by (cbn [needsb einfo]; rewrite Ho; destruct (e_need i); reflexivity).
  rewrite Hnb. clear Hnb. cbn [sized].
  assert (Hkey : forall d, leaf_psize i v = Z.max d (e_defsz i) ->
    base_update E flt_is wd (Leaf (if e_need i then with_dsize i d else i) v) = Ok (leaf_psize i v, Leaf (with_need (with_dsize i (leaf_psize i v)) false) v)).
  { intros d Hp. assert (Ho' : omitted (Leaf (if e_need i then with_dsize i d else i) v) = false).
    { rewrite <- Ho. destruct (e_need i); reflexivity. }
    assert (Ht' : typed (Leaf (if e_need i then with_dsize i d else i) v)) by (destruct (e_need i); exact Ht).
    assert (e_need i = false -> e_dsize i = leaf_psize i v) by (intros; destruct Hn; congruence).
    rewrite (base_update_ok _ (leaf_psize i v)); try assumption.
    - destruct (e_need i); reflexivity.
    - destruct (e_need i) eqn:?; cbn [einfo e_dsize with_dsize]; [lia|]. rewrite H0 by reflexivity. lia.
    - destruct (e_need i) eqn:?; cbn [einfo e_defsz with_dsize]; lia.
    - destruct (e_need i) eqn:?; cbn [einfo e_dsize e_defsz with_dsize]; [lia|]. rewrite H0 by reflexivity. lia. }
  assert (Hkey0 : leaf_psize i v = Z.max (e_dsize i) (e_defsz i) -> base_update E flt_is wd (Leaf i v) = Ok (leaf_psize i v, Leaf (with_need (with_dsize i (leaf_psize i v)) false) v)).
  { intros Hp. specialize (Hkey (e_dsize i) Hp). destruct (e_need i); [|exact Hkey].
    replace (with_dsize i (e_dsize i)) with i in Hkey by (destruct i; reflexivity). exact Hkey. }
  assert (Hkey1 : forall d, leaf_psize i v = d -> e_defsz i <= d ->
    base_update E flt_is wd (Leaf (with_dsize i d) v) = Ok (leaf_psize i v, Leaf (with_need (with_dsize i (leaf_psize i v)) false) v)).
  { intros d Hp Hdd. rewrite (base_update_ok _ (leaf_psize i v)); try assumption; cbn [einfo e_dsize e_defsz with_dsize]; try lia. reflexivity. }
  clear Ht Hd Ho Hf. unfold val_ok, defsz_ok in *.
  unfold TreeSpec.leaf_psize in Hkey, Hkey0, Hkey1, Hn, Hh, Hdz |- *.
  destruct (kind_class E (e_kind i)) eqn:Ek; destruct v as [x|x|[b|]|d|x|]; try contradiction; cbn [bind].
  - apply Hkey. rewrite !update_size_uint_max by lia. destruct (unat_least (u64 x)) as (Hr & _); [apply Z.mod_pos_bound; lia|]. lia.
  - apply Hkey. rewrite !update_size_sint_max by lia. destruct (snat_least x Hv) as (Hr & _). lia.
  - apply Hkey0. lia.
  - destruct (Hv Hs) as (b' & s & Hb & Hc & _). injection Hb as <-. rewrite Hc in *. cbn [opt_res bind].
    specialize (Hkey (zlen s) ltac:(lia)). destruct (e_need i); exact Hkey.
  - destruct (Hv Hs) as (b' & s & Hb & Hc & _). discriminate.
  - destruct (Hv Hs) as (b' & s & Hb & Hc & _). injection Hb as <-. rewrite Hc in *. cbn [opt_res bind].
    specialize (Hkey (zlen s) ltac:(lia)). destruct (e_need i); exact Hkey.
  - destruct (Hv Hs) as (b' & s & Hb & Hc & _). discriminate.
  - apply Hkey1; [reflexivity|lia].
  - apply Hkey. rewrite !update_size_sint_max by lia. destruct (snat_least x Hv) as (Hr & _). lia.
  - apply Hkey0. lia.
  - apply Hkey0. lia.
  - apply Hkey1; [reflexivity|lia].
Qed.

Lemma needs_none e : writable e -> omitted e = false -> psize e = e_dsize (einfo (sized e)).
Proof. intros. destruct e; reflexivity. Qed.

Lemma update_size_ok e : writable e -> omitted e = false -> update_size e = Ok (psize e, sized e).
Proof.
  revert e. apply (elt_ind2 (fun e => writable e -> omitted e = false -> update_size e = Ok (psize e, sized e))).
  - intros i v. apply update_leaf.
  - intros i chk ch IH H Ho. pose proof (writable_master _ _ _ H) as (_ & Hdz & Hh & Hn & _ & Hch).
    cbn [Tree.update_size]. rewrite needs_update_ok by assumption. cbn [bind].
    destruct (needsb (Master i chk ch)) eqn:Eb.
    + match goal with |- context [bind (?f ch ?a)] => assert (Hs : forall l acc, Forall writable l ->
        Forall (fun e => writable e -> omitted e = false -> update_size e = Ok (psize e, sized e)) l ->
        f l acc = Ok (true, acc + psum l, map (fun c => if omitted c then c else sized c) l)) end.
      { induction l as [|c l IHl]; intros acc Hw Hi; [cbn; rewrite Z.add_0_r; reflexivity|].
        apply Forall_cons_iff in Hw, Hi. destruct Hw as [Hw1 Hw2], Hi as [Hi1 Hi2]. rewrite left_out_ok by (apply writable_typed; assumption). cbn [bind].
        cbn [map psum fold_right]. fold (psum l). destruct (omitted c) eqn:Ec.
        - rewrite IHl by assumption. cbn [bind]. repeat f_equal; lia.
        - rewrite Hi1 by auto. cbn [bind snd].
          destruct (fsize_nonneg c) as (Hp0 & _ & _); [assumption|assumption|].
          replace (e_dsize (einfo (sized c)) =? INVALID_FILEPOS) with false
            by (rewrite <- (needs_none c) by assumption; unfold INVALID_FILEPOS; lia).
          rewrite full_size_of_sized by (try apply writable_typed; assumption). cbn [bind].
          rewrite IHl by assumption. cbn [bind]. rewrite Z.add_assoc; reflexivity. }
      rewrite Hs by assumption. cbn [bind]. rewrite <- psize_master with (i := i).
      set (p := psize (Master i chk ch)) in *. rewrite (base_update_ok _ p); cbn [einfo e_dsize e_defsz with_dsize]; try exact I; try lia.
      * cbn [with_info sized]. fold p. reflexivity.
      * unfold TreeSpec.omitted. apply andb_false_r.
      * destruct Hh as (_ & _ & Hh). lia.
    + assert (Hd : e_need i = false) by (cbn [needsb einfo] in Eb; rewrite Ho in Eb; destruct (e_need i); [discriminate|reflexivity]).
      rewrite (base_update_ok _ (psize (Master i chk ch))); try exact I; try assumption; cbn [einfo].
      * rewrite <- (sized_fix _ H Ho Eb) at 3. cbn [sized with_info einfo]. f_equal. f_equal.
        pose proof (sized_fix _ H Ho Eb) as Hfix. cbn [sized] in Hfix. injection Hfix as _ Hm. rewrite Hm. reflexivity.
      * destruct Hn; [congruence|lia].
      * destruct Hh as (_ & _ & Hh). lia.
      * destruct Hn; [congruence|]. left. assumption.
Qed.
End P.
