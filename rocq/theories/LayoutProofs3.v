(** The written file. *)
From Verif Require Import Base BaseProofs Vint VintProofs EbmlId IntElt IntEltSpec IntEltProofs EltHead Ebml Tree Layout LayoutSpec LayoutProofs.

Lemma id_len id : 1 <= get_id_length id <= 4.
Proof. unfold get_id_length. repeat match goal with |- context [if ?b then _ else _] => destruct b end; lia. Qed.
Lemma seek_data_range segd k l : k = 0 \/ k = 6 -> 0 <= seek_data segd k l <= 30 * zlen l.
Proof.
  intros Hk. induction l as [|[id p] l IH]; [unfold zlen; cbn; lia|]. rewrite zlen_cons. cbn [seek_data]. pose proof (usize_range (s64 (p - segd))). pose proof (id_len id).
  rewrite (full_short L_SeekID), (full_short L_SeekPosition) by lia. change (get_id_length L_SeekID) with 2. change (get_id_length L_SeekPosition) with 2.
  rewrite (full_short L_Seek) by lia. change (get_id_length L_Seek) with 2. lia.
Qed.
Lemma full_range id d : 0 <= d -> d <= full id d <= d + 9.
Proof. intros H. unfold full, full_size. pose proof (csl_range d H). pose proof (id_len id). lia. Qed.
Lemma seek_full_range segd k l : k = 0 \/ k = 6 -> 0 <= seek_full segd k l <= 30 * zlen l + 15.
Proof. intros Hk. unfold seek_full. pose proof (seek_data_range segd k l Hk). pose proof (full_range L_SeekHead (k + seek_data segd k l) ltac:(lia)). lia. Qed.
Lemma zlen_combine {A B} (a : list A) (b : list B) : zlen (combine a b) <= zlen a.
Proof. unfold zlen. rewrite combine_length. lia. Qed.
Lemma seek_list_len j pos c f : zlen (seek_list j pos c f) <= zlen (j_parts j) + 2.
Proof.
  unfold seek_list. rewrite zlen_app. pose proof (zlen_combine (map fst (j_parts j)) pos) as H. unfold zlen in *. rewrite map_length in H. cbn [length]. lia.
Qed.
Lemma cluster_sizes_nonneg safe bases : forall prev, Forall (fun b => 0 <= b) bases -> match prev with Some p => 0 <= p | None => True end -> Forall (fun s => 0 <= s) (cluster_sizes safe prev bases).
Proof.
  induction bases as [|b l IH]; intros prev HF Hp; cbn [cluster_sizes]; constructor.
  - apply Forall_cons_iff in HF. destruct HF as [Hb _]. match goal with |- 0 <= full _ ?d => assert (0 <= d) end.
    { destruct prev as [p|]; [|lia]. destruct safe; [|lia]. pose proof (usize_range p). pose proof (full_range L_PrevSize (usize p) ltac:(lia)). lia. }
    match goal with |- 0 <= full ?i ?d => pose proof (full_range i d ltac:(lia)) end. lia.
  - apply Forall_cons_iff in HF. destruct HF as [Hb HF]. apply IH; [exact HF|]. match goal with |- 0 <= full _ ?d => assert (0 <= d) end.
    { destruct prev as [p|]; [|lia]. destruct safe; [|lia]. pose proof (usize_range p). pose proof (full_range L_PrevSize (usize p) ltac:(lia)). lia. }
    match goal with |- 0 <= full ?i ?d => pose proof (full_range i d ltac:(lia)) end. lia.
Qed.
Lemma cluster_sizes_length safe bases : forall prev, length (cluster_sizes safe prev bases) = length bases.
Proof. induction bases as [|b l IH]; intros prev; cbn; [reflexivity|]. f_equal. apply IH. Qed.
Lemma sum_nonneg l : Forall (fun s => 0 <= s) l -> 0 <= sum l.
Proof. induction 1; unfold sum in *; cbn; lia. Qed.
Lemma sum_app a b : sum (a ++ b) = sum a + sum b.
Proof. induction a as [|x a IH]; unfold sum in *; cbn; lia. Qed.

Lemma parts_nonneg j segd : job_ok segd j -> Forall (fun s => 0 <= s) (map snd (j_parts j)).
Proof. intros (_ & H & _). induction H; cbn; constructor; auto. Qed.

Lemma make_plan_ok segd j fuel : job_ok segd j -> (7 * length (j_cues j) + 2 <= fuel)%nat ->
  exists pl, make_plan fuel segd j = Ok pl /\ pl_start pl = segd + pl_seek2 pl + j_void j + sum (map snd (j_parts j)) /\
    0 <= pl_size pl <= 6 + 40 * zlen (j_cues j) /\ 0 <= pl_seek2 pl <= 30 * (zlen (j_parts j) + 2) + 15 /\ 0 <= pl_seek3 pl <= 30 * (zlen (j_parts j) + 2) + 15 /\
    pl_clus pl = place (pl_start pl + full L_Cues (pl_size pl)) (sizes_of j) /\
    (exists d, cues_size (j_cues j) (pl_cues pl) d /\ pl_size pl = j_chk j + d) /\ Forall2 (leads segd (pl_clus pl)) (j_cues j) (pl_cues pl) /\
    (usize (s64 (j_cest j - segd)) = usize (s64 (pl_start pl - segd)) -> usize (s64 (j_fest j - segd)) = usize (s64 (first_pos (pl_clus pl) (j_fest j) - segd)) -> pl_seek3 pl = pl_seek2 pl).
Proof.
  intros HJ Hf. pose proof (parts_nonneg j segd HJ) as Hps. destruct HJ as (Hd & _ & Hk & Hv & Hq & Hs0 & Hb & HB). unfold make_plan.
  pose proof (sum_nonneg _ Hps) as Sp. set (psz := map snd (j_parts j)) in *.
  pose proof (cluster_sizes_nonneg (j_safe j) (j_bases j) None Hb I) as Hcs. fold (sizes_of j) in Hcs |- *. pose proof (sum_nonneg _ Hcs) as Sc.
  set (s1 := seek_full segd (j_chk j) (seek_list j (j_est j) (j_cest j) (j_fest j))). set (pos := place (segd + s1 + j_void j) psz).
  set (s2 := seek_full segd (j_chk j) (seek_list j pos (j_cest j) (j_fest j))).
  assert (R : forall l c f, 0 <= seek_full segd (j_chk j) (seek_list j l c f) <= 30 * (zlen (j_parts j) + 2) + 15).
  { intros l c f. pose proof (seek_full_range segd (j_chk j) (seek_list j l c f) Hk). pose proof (seek_list_len j l c f). lia. }
  pose proof (R pos (j_cest j) (j_fest j)) as R2. fold s2 in R2. pose proof (R (j_est j) (j_cest j) (j_fest j)) as R1. fold s1 in R1.
  replace (segd + s1 + j_void j + sum psz + (s2 - s1)) with (segd + s2 + j_void j + sum psz) by lia. set (start := segd + s2 + j_void j + sum psz).
  pose proof (cbase_pos (j_cues j) _ Hq) as Hcb. pose proof (zlen_nonneg (j_cues j)) as Zc. pose proof (zlen_nonneg (j_parts j)) as Zp.
  assert (Hq' : Forall (cue_ok (length (sizes_of j))) (j_cues j)) by (unfold sizes_of; rewrite cluster_sizes_length; exact Hq).
  assert (St : settled start segd (j_chk j) (sizes_of j) (j_cues j) (settle fuel start segd (sizes_of j) (j_chk j) (j_cues j) (j_size j))).
  { apply settle_ok; try assumption; unfold low_room, start; lia. }
  destruct St as (s & Hs & Hn & Es). rewrite Es. cbn [bind]. eexists. split; [reflexivity|]. cbn [pl_start pl_size pl_seek2 pl_seek3 pl_clus pl_cues].
  split; [reflexivity|]. split; [lia|]. split; [exact R2|]. split; [apply R|]. split; [reflexivity|].
  pose proof (at_size_range start s ltac:(lia)) as Ra. assert (Hst : segd <= start <= segd + j_void j + sum psz + 30 * (zlen (j_parts j) + 2) + 15) by (unfold start; lia).
  destruct (csum_size segd (sizes_of j) (at_size start s) (j_cues j) Hcs ltac:(lia) ltac:(lia) Hq') as [C1 C2].
  split; [eexists; split; [exact C1|]; unfold next in Hn; lia|]. split; [exact C2|].
  intros U1 U2. unfold s2, seek_full, seek_list. f_equal. f_equal.
  assert (A : forall a b, seek_data segd (j_chk j) (a ++ b) = seek_data segd (j_chk j) a + seek_data segd (j_chk j) b).
  { intros a b. induction a as [|[x y] a IH]; [reflexivity|]. cbn [app seek_data]. rewrite IH. lia. }
  rewrite !A. f_equal. cbn [seek_data]. rewrite U1, U2. reflexivity.
Qed.

Lemma con_shift p sizes : forall d, place (p + d) sizes = map (fun x => x + d) (place p sizes).
Proof. intros d. revert p. induction sizes as [|s l IH]; intros p; cbn; [reflexivity|]. f_equal. replace (p + d + s) with (p + s + d) by lia. apply IH. Qed.
Lemma leads_shift segd cp d c p : leads segd cp c p -> leads (segd + d) (map (fun x => x + d) cp) c p.
Proof. intros (i & x & E & N & L). exists i, (x + d). split; [exact E|]. split; [|lia]. rewrite nth_error_map, N. reflexivity. Qed.
Lemma con_app p a pa b pb : consecutive p a pa -> consecutive (p + sum a) b pb -> consecutive p (a ++ b) (pa ++ pb).
Proof.
  induction 1 as [p|p s sizes pos H IH]; intros HB; cbn [app].
  - unfold sum in HB. cbn in HB. rewrite Z.add_0_r in HB. exact HB.
  - constructor. apply IH. replace (p + s + sum sizes) with (p + sum (s :: sizes)) by (unfold sum; cbn; lia). exact HB.
Qed.
Lemma place_range sizes : forall p x, Forall (fun s => 0 <= s) sizes -> In x (place p sizes) -> p <= x <= p + sum sizes.
Proof.
  induction sizes as [|s l IH]; intros p x HF HI; [destruct HI|]. apply Forall_cons_iff in HF. destruct HF as [Hs HF]. pose proof (sum_nonneg l HF).
  unfold sum in *. cbn [place fold_right In] in *. destruct HI as [<-|HI]; [lia|]. specialize (IH (p + s) x HF HI). lia.
Qed.

Lemma seek_stored_ok segd l : Forall (fun x => is_int64 (snd x - segd)) l -> seeks segd (seek_stored segd l) l.
Proof.
  induction 1 as [|x l Hx Hl IH]; cbn [seek_stored map]; constructor; [|exact IH]. cbn [fst snd]. split; [reflexivity|]. rewrite IntEltProofs.s64_small by exact Hx. lia.
Qed.
Lemma csl_new d0 l0 size : 0 <= size -> (0 <= d0 /\ l0 = 0 \/ d0 = -1 /\ l0 = 8) ->
  coded_size_length size (if coded_size_length size 0 true <? coded_size_length d0 0 true then coded_size_length d0 0 true else l0) true = Z.max (coded_size_length d0 l0 true) (coded_size_length size 0 true).
Proof.
  intros Hs [[Hd ->]|[-> ->]]; pose proof (csl_range size Hs).
  - pose proof (csl_range d0 Hd). destruct (Z.ltb_spec (coded_size_length size 0 true) (coded_size_length d0 0 true)).
    + rewrite coded_size_length_forced by lia. lia.
    + lia.
  - change (coded_size_length (-1) 0 true) with 1. change (coded_size_length (-1) 8 true) with 8. replace (coded_size_length size 0 true <? 1) with false by lia.
    rewrite coded_size_length_forced by lia. lia.
Qed.
Lemma write_ok spos d0 l0 j wsizes changed fuel : 0 <= spos -> (0 <= d0 /\ l0 = 0 \/ d0 = -1 /\ l0 = 8) -> job_ok (spos + coded_size_length d0 l0 true) j -> j_cues j <> [] ->
  (7 * length (j_cues j) + 2 <= fuel)%nat -> length wsizes = length (j_bases j) -> Forall (fun s => 0 <= s) wsizes -> sum wsizes < 2 ^ 61 -> (changed = false -> wsizes = sizes_of j) ->
  exists pl w, make_plan fuel (spos + coded_size_length d0 l0 true) j = Ok pl /\ write_file fuel spos d0 l0 j wsizes changed = Ok w /\
    match w with File o => file_ok j spos d0 l0 wsizes changed pl o | Failed c => c = -18 /\ changed = true \/ c = -23 end.
Proof.
  intros Hsp Hd0 HJ Hne Hf Hwl Hw Hws Hch. pose proof (parts_nonneg _ _ HJ) as Hps.
  destruct (make_plan_ok _ j fuel HJ Hf) as (pl & Epl & P1 & P2 & P3 & P4 & P5 & _ & P7 & _). destruct HJ as (Hd & _ & Hk & Hv & Hq & Hs0 & Hb & HB).
  set (segd := spos + coded_size_length d0 l0 true) in *. exists pl.
  pose proof (sum_nonneg _ Hps) as Sp. pose proof (sum_nonneg _ Hw) as Sw. pose proof (zlen_nonneg (j_cues j)) as Zc. pose proof (zlen_nonneg (j_parts j)) as Zp.
  pose proof (cluster_sizes_nonneg (j_safe j) (j_bases j) None Hb I) as Hcs. fold (sizes_of j) in Hcs. pose proof (sum_nonneg _ Hcs) as Sc.
  unfold write_file. fold segd. rewrite Epl. cbn [bind]. set (psz := map snd (j_parts j)) in *. set (s3 := pl_seek3 pl) in *. set (csz := full L_Cues (pl_size pl)) in *.
  pose proof (full_range L_Cues (pl_size pl) ltac:(lia)) as Rc. fold csz in Rc. set (cues := segd + s3 + j_void j + sum psz) in *. set (cp := place (cues + csz) wsizes) in *.
  set (size := s3 + j_void j + sum psz + csz + sum wsizes) in *.
  assert (Hcue : cues + csz + sum wsizes < 2 ^ 63) by (unfold cues; lia).
  assert (Hfirst : exists first rest, cp = first :: rest).
  { destruct (j_cues j) as [|c q]; [contradiction|]. apply Forall_cons_iff in Hq. destruct Hq as [(_ & _ & _ & i & _ & Hi) _]. unfold cp. destruct wsizes as [|x w]; [cbn in Hwl; lia|]. cbn [place]. eauto. }
  destruct Hfirst as (first & rest & Ecp).
  assert (HELD : forall held, Forall2 (leads (segd + (if changed then 0 else s3 - pl_seek2 pl)) cp) (j_cues j) held ->
    exists w, (let l := if coded_size_length size 0 true <? coded_size_length d0 0 true then coded_size_length d0 0 true else l0 in
      let segd' := spos + coded_size_length size l true in let seek := seek_list j (place (segd + s3 + j_void j) psz) cues (first_pos cp (j_fest j)) in
      if seek_full segd' (j_chk j) seek =? s3 then Ok (File (mkOut segd segd' (seek_stored segd' seek) (place (segd + s3 + j_void j) psz) cues cp held size (segd + size))) else Ok (Failed (-23))) = Ok w /\
      match w with File o => file_ok j spos d0 l0 wsizes changed pl o | Failed c => c = -18 /\ changed = true \/ c = -23 end).
  { intros held Hh. cbv zeta. rewrite csl_new by (assumption || (unfold size; lia)). set (segd' := spos + Z.max (coded_size_length d0 l0 true) (coded_size_length size 0 true)).
    assert (Rs : 0 <= segd' < 2 ^ 40 + spos). { unfold segd'. pose proof (csl_range size ltac:(unfold size; lia)). assert (0 <= coded_size_length d0 l0 true <= 8) by (destruct Hd0 as [[H0 ->]|[-> ->]]; [pose proof (csl_range d0 H0); lia|vm_compute; split; discriminate]). lia. }
    assert (Rg : spos <= segd). { unfold segd. destruct Hd0 as [[H0 ->]|[-> ->]]; [pose proof (csl_range d0 H0); lia|change (coded_size_length (-1) 8 true) with 8; lia]. }
    destruct (_ =? s3); [|eexists; split; [reflexivity|right; reflexivity]]. eexists. split; [reflexivity|].
    unfold file_ok. cbn [o_segd o_segd' o_seek o_parts o_cues o_clus o_held o_size]. fold s3 psz csz. split; [reflexivity|]. split; [reflexivity|]. split.
    { apply con_app; [apply place_con|]. replace (segd + s3 + j_void j + sum psz) with cues by reflexivity. constructor. apply place_con. }
    split; [reflexivity|]. split; [|exact Hh]. exists first. split; [rewrite Ecp; reflexivity|].
    unfold seek_list, real_list. cbn [o_parts o_cues]. rewrite Ecp at 1. cbn [first_pos]. apply seek_stored_ok. apply Forall_app. split.
    - apply Forall_forall. intros [id x] Hx. apply in_combine_r in Hx. pose proof (place_range psz _ x Hps Hx). unfold is_int64. cbn [snd]. lia.
    - assert (Hfi : cues + csz <= first <= cues + csz + sum wsizes) by (apply (place_range wsizes _ first Hw); fold cp; rewrite Ecp; left; reflexivity).
      unfold is_int64. constructor; [cbn [snd]; unfold cues; lia|]. constructor; [cbn [snd]; lia|constructor]. }
  destruct changed.
  - assert (Hq' : Forall (cue_ok (length wsizes)) (j_cues j)) by (rewrite Hwl; exact Hq).
    unfold cp at 1. rewrite update_cues_eq by (try assumption; unfold cues; lia). cbn [bind fst snd].
    destruct ((full L_Cues (j_chk j + csum segd wsizes (cues + csz) (j_cues j)) + 2 <=? csz) || (full L_Cues (j_chk j + csum segd wsizes (cues + csz) (j_cues j)) =? csz)); cbn [bind].
    + destruct (HELD (map (cpos segd wsizes (cues + csz)) (j_cues j))) as (w & E & W); [|exists w; split; [reflexivity|split; [exact E|exact W]]].
      rewrite Z.add_0_r. apply csum_size; try assumption; unfold cues; lia.
    + eexists. split; [reflexivity|]. split; [reflexivity|]. left. split; reflexivity.
  - cbn [bind]. destruct (HELD (pl_cues pl)) as (w & E & W); [|exists w; split; [reflexivity|split; [exact E|exact W]]].
    specialize (Hch eq_refl). assert (Ec : cp = map (fun x => x + (s3 - pl_seek2 pl)) (pl_clus pl)).
    { unfold cp, cues. rewrite P5, P1, Hch, <- con_shift. f_equal. fold csz. lia. }
    rewrite Ec. clear -P7. induction P7 as [|c p q ps H HF IH]; constructor; [apply leads_shift, H|exact IH].
Qed.
