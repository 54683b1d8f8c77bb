From Coq Require Import Permutation Sorted.
From Verif Require Import Base Vint EbmlId EbmlIdSpec EbmlIdProofs Ebml Tree TreeRead Create Arr ArrSpec ArrProofs ArrProofs2 ArrProofs3 Stream Frame NodeTree NodeTreeSpec NodeTreeProofs BlockTime BlockTimeProofs Cues CuesSpec.

Section Reading.
Context (E : schema).
Lemma find_first id l d : first_elt E id l d -> find_child E id l = Some d.
Proof.
  intros (l1 & l2 & -> & Hd & Hn). unfold find_child. induction Hn as [|x l1 Hx _ IH]; cbn [app find].
  - unfold eid_of. rewrite Hd, Z.eqb_refl. reflexivity.
  - unfold eid_of at 1. rewrite (proj2 (Z.eqb_neq _ _) Hx). exact IH.
Qed.
Lemma cue_time_ok q t n p : is_cue E q t n p -> cue_time E q = Ok t.
Proof.
  intros (i & k & ch & Hq & _ & (j & v & Hf & -> & Hb) & _). unfold cue_time, ID_CueTime. rewrite Hq. cbn [children]. rewrite (find_first _ _ _ Hf). cbn [int_of bind].
  rewrite s64_small by exact Hb. reflexivity.
Qed.
Lemma cue_track_ok q t n p : is_cue E q t n p -> cue_track E q = Ok n.
Proof.
  intros (i & k & ch & Hq & _ & _ & j & kk & cp & Hf & (j2 & v & Hg & -> & Hb) & _). unfold cue_track, ID_CueTrackPositions, ID_CueTrack. rewrite Hq. cbn [children]. rewrite (find_first _ _ _ Hf).
  cbn [children]. rewrite (find_first _ _ _ Hg). cbn [int_of bind]. rewrite Z.mod_small by exact Hb. reflexivity.
Qed.
Lemma cue_pos_ok q t n p : is_cue E q t n p -> cue_pos E q = Ok p.
Proof.
  intros (i & k & ch & Hq & _ & _ & j & kk & cp & Hf & _ & (j2 & Hg)). unfold cue_pos, ID_CueTrackPositions, ID_CueClusterPosition. rewrite Hq. cbn [children]. rewrite (find_first _ _ _ Hf).
  cbn [children]. rewrite (find_first _ _ _ Hg). reflexivity.
Qed.
Lemma is_cue_fun q t n p t' n' p' : is_cue E q t n p -> is_cue E q t' n' p' -> t = t' /\ n = n' /\ p = p'.
Proof.
  intros H H'. pose proof (cue_time_ok _ _ _ _ H) as A. rewrite (cue_time_ok _ _ _ _ H') in A. injection A as A.
  pose proof (cue_track_ok _ _ _ _ H) as B. rewrite (cue_track_ok _ _ _ _ H') in B. injection B as B.
  pose proof (cue_pos_ok _ _ _ _ H) as C. rewrite (cue_pos_ok _ _ _ _ H') in C. injection C as C. auto.
Qed.
Lemma cue_id_ok q t n p : is_cue E q t n p -> cue_id E q = ID_CuePoint.
Proof. intros (i & k & ch & Hq & Hi & _). exact Hi. Qed.
Lemma cues_cmp_ok junk a b ta na pa tb nb pb : is_cue E a ta na pa -> is_cue E b tb nb pb ->
  cues_cmp_tot E junk a b = if tb <? ta then 1 else if ta <? tb then -1 else if nb <? na then 1 else if na <? nb then -1 else 0.
Proof.
  intros Ha Hb. unfold cues_cmp_tot, cues_cmp. rewrite (cue_id_ok _ _ _ _ Ha), (cue_id_ok _ _ _ _ Hb), Z.eqb_refl. unfold cmp_cue.
  rewrite (cue_time_ok _ _ _ _ Ha), (cue_time_ok _ _ _ _ Hb), (cue_track_ok _ _ _ _ Ha), (cue_track_ok _ _ _ _ Hb). cbn [bind].
  destruct (tb <? ta); [reflexivity|]. destruct (ta <? tb); [reflexivity|]. destruct (nb <? na); [reflexivity|]. destruct (na <? nb); reflexivity.
Qed.
End Reading.

Definition lexcmp (ta na tb nb : Z) : Z := if tb <? ta then 1 else if ta <? tb then -1 else if nb <? na then 1 else if na <? nb then -1 else 0.
Lemma lexcmp_le ta na tb nb : lexcmp ta na tb nb <= 0 <-> ta < tb \/ (ta = tb /\ na <= nb).
Proof. unfold lexcmp. destruct (Z.ltb_spec tb ta), (Z.ltb_spec ta tb), (Z.ltb_spec nb na), (Z.ltb_spec na nb); lia. Qed.
Lemma lexcmp_lt ta na tb nb : lexcmp ta na tb nb < 0 <-> ta < tb \/ (ta = tb /\ na < nb).
Proof. unfold lexcmp. destruct (Z.ltb_spec tb ta), (Z.ltb_spec ta tb), (Z.ltb_spec nb na), (Z.ltb_spec na nb); lia. Qed.

Lemma master_sort_gen fuel h F (cmp : Z -> Z -> Z) m r : rep h F -> m <> 0 -> (length (F m) <= fuel)%nat ->
  array_sort cmp true false (F m) = Some r -> Permutation (F m) r ->
  exists h', master_sort fuel h cmp m = Some h' /\ rep h' (fun q => if q =? m then r else F q).
Proof.
  intros R Hm Hf Er Hr. unfold master_sort. rewrite (collect_ok h (F m) fuel _ (rep_chain h F R m Hm) Hf), Er.
  destruct (detach_all_ok m Hm (F m) fuel h F R eq_refl Hf) as (h1 & -> & R1).
  destruct (refill_ok m Hm r fuel h1 (emptied F m) R1) as (h2 & E2 & R2).
  - intros x Hx. apply (Permutation_in x (Permutation_sym Hr)) in Hx. pose proof (proj1 (rep_par h F R m x Hm) Hx) as [Hx0 Hxp].
    split; [exact Hx0|]. intros q Hq Hi. unfold emptied in Hi. destruct (Z.eqb_spec q m) as [->|Hqm]; [destruct Hi|].
    apply (rep_par h F R q x Hq) in Hi. lia.
  - eapply Permutation_NoDup; [exact Hr|apply (rep_nodup h F R), Hm].
  - unfold emptied. rewrite Z.eqb_refl. rewrite <- (Permutation_length Hr). cbn [length]. lia.
  - exists h2. split; [exact E2|]. eapply rep_ext; [exact R2|]. intros q Hq. unfold emptied. rewrite Z.eqb_refl. destruct (q =? m); reflexivity.
Qed.

Lemma cues_sort_ok E junk fuel h F m (look : Z -> cue) : rep h F -> m <> 0 -> (length (F m) <= fuel)%nat -> Forall (fun x => a_cue E (look x)) (F m) ->
  exists r h', master_sort fuel h (fun x y => cues_cmp_tot E junk (look x) (look y)) m = Some h' /\
    rep h' (fun q => if q =? m then r else F q) /\ Permutation (F m) r /\ StronglySorted (fun x y => cue_le E (look x) (look y)) r.
Proof.
  intros R Hm Hf Hc. set (P := fun x => existsb (Z.eqb x) (F m)). set (cmp := fun x y => cues_cmp_tot E junk (look x) (look y)).
  assert (HP : forall x, P x = true -> a_cue E (look x)).
  { intros x Hx. apply existsb_exists in Hx. destruct Hx as (y & Hy & He). apply Z.eqb_eq in He. subst y. rewrite Forall_forall in Hc. exact (Hc x Hy). }
  destruct (array_sort_on P cmp true (F m)) as (r & Hr & Hp & Hs).
  - apply Forall_forall. intros x Hx. apply existsb_exists. exists x. split; [exact Hx|apply Z.eqb_refl].
  - intros x y Hx Hy. destruct (HP x Hx) as (tx & nx & px & Ex). destruct (HP y Hy) as (ty & ny & py & Ey). unfold cmp.
    rewrite (cues_cmp_ok E junk _ _ _ _ _ _ _ _ Ex Ey), (cues_cmp_ok E junk _ _ _ _ _ _ _ _ Ey Ex).
    fold (lexcmp tx nx ty ny). fold (lexcmp ty ny tx nx). rewrite lexcmp_lt. assert (0 < lexcmp ty ny tx nx <-> ~ lexcmp ty ny tx nx <= 0) as -> by lia. rewrite lexcmp_le. lia.
  - intros x y z Hx Hy Hz. destruct (HP x Hx) as (tx & nx & px & Ex). destruct (HP y Hy) as (ty & ny & py & Ey). destruct (HP z Hz) as (tz & nz & pz & Ez). unfold cmp.
    rewrite (cues_cmp_ok E junk _ _ _ _ _ _ _ _ Ex Ey), (cues_cmp_ok E junk _ _ _ _ _ _ _ _ Ey Ez), (cues_cmp_ok E junk _ _ _ _ _ _ _ _ Ex Ez).
    fold (lexcmp tx nx ty ny). fold (lexcmp ty ny tz nz). fold (lexcmp tx nx tz nz). rewrite !lexcmp_le. lia.
  - destruct (master_sort_gen fuel h F cmp m r R Hm Hf Hr Hp) as (h' & E1 & R1). exists r, h'. split; [exact E1|]. split; [exact R1|]. split; [exact Hp|].
    clear -Hs. unfold sorted_by in Hs. induction Hs as [|x r Hs IH Hx]; constructor; [exact IH|]. eapply Forall_impl; [|exact Hx]. cbn beta. intros y Hy.
    intros ta na pa tb nb pb Ha Hb. unfold cmp in Hy. rewrite (cues_cmp_ok E junk _ _ _ _ _ _ _ _ Ha Hb) in Hy.
    destruct (Z.ltb_spec tb ta), (Z.ltb_spec ta tb), (Z.ltb_spec nb na), (Z.ltb_spec na nb); lia.
Qed.

Section Start.
Context (E : schema).
Lemma start_scan_ok l ts prev : Forall (a_cue E) l -> StronglySorted (cue_le E) l ->
  (start_scan E l prev ts = Ok prev /\ Forall (after E ts) l) \/
  exists l1 q l2, l = l1 ++ q :: l2 /\ start_scan E l prev ts = Ok (Some q) /\ not_after E ts q /\ Forall (after E ts) l2.
Proof.
  revert prev. induction l as [|q l IH]; intros prev Hc Hs.
  - left. split; [reflexivity|constructor].
  - apply Forall_cons_iff in Hc. destruct Hc as [(t & n & p & Hq) Hc]. apply StronglySorted_inv in Hs. destruct Hs as [Hs Hle].
    cbn [start_scan]. rewrite (cue_time_ok E _ _ _ _ Hq). cbn [bind]. destruct (Z.ltb_spec ts t) as [Ht|Ht].
    + left. split; [reflexivity|]. constructor; [exists t, n, p; auto|]. rewrite Forall_forall in *. intros q' Hq'.
      destruct (Hc q' Hq') as (t' & n' & p' & E'). exists t', n', p'. split; [exact E'|]. specialize (Hle q' Hq' _ _ _ _ _ _ Hq E'). lia.
    + right. destruct (IH (Some q) Hc Hs) as [[E1 F1]|(l1 & q1 & l2 & -> & E1 & N1 & F1)].
      * exists [], q, l. split; [reflexivity|]. split; [exact E1|]. split; [exists t, n, p; auto|exact F1].
      * exists (q :: l1), q1, l2. split; [reflexivity|]. split; [exact E1|]. auto.
Qed.
Lemma cues_start_ok l ts : Forall (a_cue E) l -> StronglySorted (cue_le E) l -> l <> [] -> ts <> INVALID_TIMESTAMP ->
  exists l1 q l2, l = l1 ++ q :: l2 /\ cues_start E l ts = Ok (Some q) /\
    ((not_after E ts q /\ Forall (after E ts) l2) \/ (l1 = [] /\ Forall (after E ts) l)).
Proof.
  intros Hc Hs Hne Hts. unfold cues_start. rewrite (proj2 (Z.eqb_neq _ _) Hts).
  destruct (start_scan_ok l ts None Hc Hs) as [[-> F1]|(l1 & q & l2 & El & -> & N & F1)]; cbn [bind].
  - destruct l as [|q l]; [contradiction|]. exists [], q, l. split; [reflexivity|]. split; [reflexivity|]. right. auto.
  - exists l1, q, l2. split; [exact El|]. split; [reflexivity|]. left. auto.
Qed.
End Start.
