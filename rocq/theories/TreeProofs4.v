(** Sizes of a tree after the update. *)
From Verif Require Import Base BaseProofs VintSpec EbmlIdSpec CrcSpec IntEltSpec Vint VintProofs EbmlId EbmlIdProofs IntElt IntEltProofs
  Crc CrcProofs EltHead Void VoidSpec VoidProofs Ebml Arr ArrProofs ArrProofs2 Stream StreamProofs Tree TreeSpec TreeProofs TreeProofs2.

Section B.
Context (E : schema) (narrow : Z -> Z) (flt_is : Z -> Z -> bool) (wd : bool).
Notation omitted := (omitted E flt_is wd).
Notation sized := (sized E flt_is wd).
Notation psize := (psize E flt_is wd).
Notation balanced := (balanced E flt_is wd).

Lemma omitted_sized e : omitted (sized e) = omitted e.
Proof. destruct e as [i v|i chk ch]; reflexivity. Qed.

Lemma sized_balanced e : balanced (sized e) /\ e_dsize (einfo (sized e)) = psize e.
Proof.
  revert e. apply (elt_ind2 (fun e => balanced (sized e) /\ e_dsize (einfo (sized e)) = psize e)).
  - intros i v. split; [constructor|reflexivity].
  - intros i chk ch IH. split; [|reflexivity]. cbn [TreeProofs.sized]. constructor.
    + cbn [with_need with_dsize e_dsize]. cbn [TreeSpec.psize]. f_equal.
      induction ch as [|c ch IHc]; [reflexivity|]. apply Forall_cons_iff in IH. destruct IH as [[_ Hc] IH]. cbn [map filter fold_right].
      rewrite (IHc IH). destruct (omitted c) eqn:Ec.
      * rewrite Ec. cbn [negb]. reflexivity.
      * rewrite omitted_sized, Ec. cbn [negb map fold_right]. f_equal. unfold elen. rewrite Hc. destruct c; reflexivity.
    + clear -IH. induction ch as [|c ch IHc]; constructor; apply Forall_cons_iff in IH; destruct IH as [[Hb _] IH]; [|apply IHc; exact IH].
      destruct (omitted c) eqn:Ec; [left; exact Ec|right; exact Hb].
Qed.

Lemma full_size_kept keep p e : typed E e -> omitted e = false -> full_size_of E flt_is wd (kept E flt_is wd keep p e) = Ok (fsize E flt_is wd e).
Proof.
  intros Ht Ho. unfold full_size_of. rewrite left_out_ok; [|destruct keep, e; exact Ht].
  replace (omitted (kept E flt_is wd keep p e)) with false by (rewrite <- Ho; destruct keep, e; reflexivity). cbn [bind].
  destruct keep, e; reflexivity.
Qed.
End B.
