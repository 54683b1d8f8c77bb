(** C92: what mkclean leaves of an element before it writes it. *)
From Verif Require Import Base BaseProofs Ebml Tree TreeRead TreeSpec TreeProofs Create CreateSpec CreateProofs MkSchema MkSpec MkProofs Reduce ReduceSpec ReduceProofs ReduceProofs2.

Definition plain_okb (c : Z) (x : ctx) : bool :=
  (c <=? 2) || match c_class x with KVoid | KDummy => false | _ => negb (c_id x =? 191) end.
Lemma plain_ok : forall c, inside c = true -> plain_okb c (mk c) = true.
Proof. apply mk_all. vm_compute. reflexivity. Qed.
Lemma mk_sound prof : sound_tables mk prof.
Proof.
  intros c l Hl. destruct (master_table c (sem_master c l Hl)) as (_ & l' & _ & _ & Hl' & _ & _ & _ & Hin & Hnd). rewrite Hl in Hl'. injection Hl' as <-. split.
  - clear Hl. induction l as [|s l IH]; [constructor|]. cbn [map] in *. apply NoDup_cons_iff in Hnd. destruct Hnd as [N1 N2]. constructor; [|apply IH; [exact N2|intros; apply Hin; right; assumption]].
    intros H. apply in_map_iff in H. destruct H as (s' & H1 & H2). apply N1. replace (s_ctx s) with (s_ctx s'); [apply in_map; exact H2|]. apply id_inj; [apply (Hin s' (or_intror H2))|apply (Hin s (or_introl eq_refl))|exact H1].
  - intros s Hs _. destruct (Hin s Hs) as [H1 H2]. pose proof (plain_ok _ H1) as H. unfold plain_okb in H. replace (s_ctx s <=? 2) with false in H by lia. cbn [orb] in H. unfold sem_id.
    destruct (c_class (mk (s_ctx s))); try discriminate H; (split; [discriminate|split; [discriminate|]]); intros K; rewrite K in H; discriminate H.
Qed.

(** The work ends for every tree of elements with tables, and the element is deleted exactly when it is
    a BlockGroup without what it needs, or a master that needs something and has nothing worth keeping. *)
Theorem C92_ends : forall td fuel unsafe prof e, (4 <= fuel)%nat -> tabled mk e ->
  exists r, reduce mk td fuel unsafe prof e = Ok r /\ (r = None <-> gone mk prof e).
Proof.
  intros td fuel unsafe prof e Hf Ht. destruct (reduce_main mk td fuel unsafe prof (mk_sound prof) (fun c => mk_create_total td prof true c fuel Hf) e Ht) as (r & H1 & H2 & _). exists r. auto.
Qed.
Print Assumptions C92_ends.
(** What is kept: the values, the order, every child that is not left out for one of the reasons; what
    is added: children that are mandatory and were not there. *)
Theorem C92_kept : forall td fuel unsafe prof e e', (4 <= fuel)%nat -> tabled mk e -> reduce mk td fuel unsafe prof e = Ok (Some e') -> cleaned mk td prof unsafe e e'.
Proof.
  intros td fuel unsafe prof e e' Hf Ht H. destruct (reduce_main mk td fuel unsafe prof (mk_sound prof) (fun c => mk_create_total td prof true c fuel Hf) e Ht) as (r & H1 & _ & H2).
  rewrite H in H1. injection H1 as <-. apply (H2 e' eq_refl).
Qed.
Print Assumptions C92_kept.
(** The result is clean at every level. *)
Theorem C92_neat : forall td fuel unsafe prof e e', (4 <= fuel)%nat -> tabled mk e -> reduce mk td fuel unsafe prof e = Ok (Some e') -> everywhere (neat mk prof unsafe) e'.
Proof.
  intros td fuel unsafe prof e e' Hf Ht H. destruct (reduce_main mk td fuel unsafe prof (mk_sound prof) (fun c => mk_create_total td prof true c fuel Hf) e Ht) as (r & H1 & _ & H2).
  rewrite H in H1. injection H1 as <-. apply (H2 e' eq_refl).
Qed.
Print Assumptions C92_neat.

(** A cluster with padding, a checksum, a doubled time, a group without a block and one with a block. *)
Definition inf (c : Z) (sz : Z) : info := mkInfo (Known c) true false true 1 (-1) sz 0 0 0.
Definition ex_cluster : elt :=
  Master (inf cCluster 8) 1
    [Leaf (inf cEbmlCrc32 1) (VCrc 7); Leaf (inf cTimestamp 1) (VInt 5); Leaf (inf cEbmlVoid 4) VNone; Leaf (inf cTimestamp 2) (VInt 6);
     Master (inf cBlockGroup 2) 0 [Leaf (inf cBlockDuration 1) (VInt 40)];
     Master (inf cBlockGroup 2) 0 [Leaf (inf cBlock 3) (VBin [129; 0; 0; 0; 9]); Leaf (mkInfo (Dummy 16777) true false true 1 (-1) 1 0 0 0) (VBin [1])];
     Leaf (inf cSimpleBlock 1) (VBin [129; 0; 0; 0; 8])].
Example C92_ex : tabled mk ex_cluster /\
  exists e' i0 i1 i2 i3 i4 i5, reduce mk (fun x => x) 4 true PROFILE_V2 ex_cluster = Ok (Some e') /\
    e' = Master i0 0 [Leaf i1 (VInt 6); Master i2 0 [Leaf i3 (VBin [129; 0; 0; 0; 9]); Leaf i5 (VInt 0)]; Leaf i4 (VBin [129; 0; 0; 0; 8])] /\
    e_kind i0 = Known cCluster /\ e_kind i1 = Known cTimestamp /\ e_kind i5 = Known cReferencePriority.
Proof.
  split.
  - repeat first [eapply tabled_master; [eexists; split; [reflexivity|vm_compute; reflexivity]|] | apply tabled_leaf | apply Forall_cons | apply Forall_nil].
  - do 7 eexists. split; [vm_compute; reflexivity|]. split; [reflexivity|]. split; [reflexivity|]. split; reflexivity.
Qed.

(** An element given to the cleaning may be deleted: mkclean goes on using it (mkclean.c 2155-2165 for
    Attachments, the same for Chapters, Tags and Cues).  Here a section with nothing but padding. *)
Theorem C92_freed_refuted : exists e, tabled mk e /\ e_kind (einfo e) = Known cAttachments /\
  forall td fuel unsafe prof, (4 <= fuel)%nat -> Z.land 8 prof = 0 -> reduce mk td fuel unsafe prof e = Ok None.
Proof.
  exists (Master (inf cAttachments 8) 1 [Leaf (inf cEbmlVoid 1) VNone]).
  assert (T : tabled mk (Master (inf cAttachments 8) 1 [Leaf (inf cEbmlVoid 1) VNone])).
  { eapply tabled_master; [exists cAttachments; split; [reflexivity|vm_compute; reflexivity]|]. constructor; [apply tabled_leaf|constructor]. }
  split; [exact T|]. split; [reflexivity|]. intros td fuel unsafe prof Hf Hp. destruct (C92_ends td fuel unsafe prof _ Hf T) as (r & H1 & H2). rewrite H1. f_equal. apply H2.
  eapply gone_empty with (s := mkSem true false cAttachedFile 8) (l := sAttachments).
  - exists cAttachments. split; [reflexivity|vm_compute; reflexivity].
  - left. reflexivity.
  - split; [reflexivity|]. split; [apply enabled_land; exact Hp|]. right. vm_compute. reflexivity.
  - constructor; [|constructor]. left. left. vm_compute. reflexivity.
Qed.
Print Assumptions C92_freed_refuted.
(** An element that the profile does not allow may stay, as the first child: here an EncryptedBlock, not
    allowed in any profile. *)
Theorem C92_profile_refuted : exists e e' i chk c ch s, tabled mk e /\ reduce mk (fun x => x) 4 false PROFILE_V2 e = Ok (Some e') /\ e' = Master i chk (c :: ch) /\
  line mk sCluster c s /\ ~ enabled PROFILE_V2 s.
Proof.
  exists (Master (inf cCluster 8) 1 [Leaf (inf cEncryptedBlock 1) (VBin [1]); Leaf (inf cEncryptedBlock 1) (VBin [2]); Leaf (inf cTimestamp 1) (VInt 5)]). do 5 eexists. exists (mkSem false false cEncryptedBlock 127).
  split; [eapply tabled_master; [exists cCluster; split; [reflexivity|vm_compute; reflexivity]|]; repeat first [apply tabled_leaf | apply Forall_cons | apply Forall_nil]|].
  split; [vm_compute; reflexivity|]. split; [reflexivity|]. split.
  - apply sem_line. vm_compute. reflexivity.
  - intros H. apply enabled_land in H. vm_compute in H. discriminate H.
Qed.
Print Assumptions C92_profile_refuted.
