From Verif Require Import Base BaseProofs Vint EbmlId Ebml Tree TreeRead Create CreateProofs Arr Stream Frame Block BlockTime BlockTimeProofs Cues CuesSpec CuesProofs CuesProofs2 Tracks TracksSpec TracksProofs TracksProofs2.

Section Proofs.
Context (rest : schema).
Notation T := (T rest).
Lemma number_yes t n : track_no T t n -> number_of rest t = Ok (Some n).
Proof. intros (j & Hf & Hs). unfold number_of, child. rewrite kids_children. change ID_TrackNumber with 215. rewrite (find_first _ _ _ _ Hf). cbn [einfo]. rewrite Hs. reflexivity. Qed.
Lemma number_no t : no_number T t -> number_of rest t = Ok None.
Proof.
  intros [H|(d & Hf & Hs)]; unfold number_of, child; rewrite kids_children; change ID_TrackNumber with 215.
  - rewrite (find_no _ _ _ H). reflexivity.
  - rewrite (find_first _ _ _ _ Hf), Hs. reflexivity.
Qed.
Lemma number_other n t : other_no T n t -> exists m, number_of rest t = Ok m /\ match m with Some m => m =? n | None => false end = false.
Proof.
  intros [H|(m & Hm & Hne)]; [exists None; split; [apply number_no, H|reflexivity]|]. exists (Some m). split; [apply number_yes, Hm|]. apply Z.eqb_neq, Hne.
Qed.

Lemma same0_refl b : same_block0 b b.
Proof. repeat split. Qed.
Lemma same0_need b b' v : same_block0 b b' -> same_block0 b (bl_need b' v).
Proof. intros H. exact H. Qed.
Lemma same0_relinked b b' x y : same_block0 b b' -> same_block0 b (relinked x y b').
Proof. intros H. unfold relinked. destruct (x =? y); exact H. Qed.
Lemma relinked_track b x y : b_track (relinked x y b) = b_track b.
Proof. unfold relinked. destruct (x =? y); reflexivity. Qed.
Lemma relinked_sizes b x y : b_sizes (relinked x y b) = b_sizes b.
Proof. unfold relinked. destruct (x =? y); reflexivity. Qed.
Lemma relinked_data b x y : b_data (relinked x y b) = b_data b.
Proof. unfold relinked. destruct (x =? y); reflexivity. Qed.

(** The links made before the compression is looked at. *)
Definition relink (too : bool) (a : Z) (l : lblock) : lblock := if too then set_wt a (set_rt a l) else set_rt a l.
Lemma relink_ok too a l : l_rt (relink too a l) = a /\ l_wt (relink too a l) = (if too then a else l_wt l) /\ l_ri (relink too a l) = l_ri l /\
  l_wi (relink too a l) = l_wi l /\ same_block0 (l_b l) (l_b (relink too a l)).
Proof.
  unfold relink. destruct too; cbn [set_wt set_rt l_rt l_wt l_ri l_wi l_b]; repeat (split; [reflexivity|]); repeat apply same0_relinked; apply same0_refl.
Qed.
Lemma link_read_first h tracks too l a t : first_track T h tracks (b_track (l_b l)) a t ->
  link_read_tracks rest h tracks too l = if l_rt l =? 0 then check_link rest h (relink too a l) else Ok (ERR_NONE, relink too a l).
Proof.
  intros (r1 & r2 & -> & Ha & Hn & Ho). induction Ho as [|b r1 (u & Hu & Hb) _ IH]; cbn [app link_read_tracks].
  - rewrite Ha, (number_yes _ _ Hn). cbn [bind]. rewrite Z.eqb_refl. unfold relink. destruct (l_rt l =? 0); reflexivity.
  - rewrite Hu. destruct (number_other _ _ Hb) as (m & -> & Hm). cbn [bind]. rewrite Hm. exact IH.
Qed.
Lemma link_read_none h tracks too l : no_track T h tracks (b_track (l_b l)) -> link_read_tracks rest h tracks too l = Ok (ERR_INVALID_DATA, l).
Proof.
  unfold no_track. induction 1 as [|b r1 (u & Hu & Hb) _ IH]; cbn [link_read_tracks]; [reflexivity|].
  rewrite Hu. destruct (number_other _ _ Hb) as (m & -> & Hm). cbn [bind]. rewrite Hm. exact IH.
Qed.
Lemma link_write_first h tracks l a t : first_track T h tracks (b_track (l_b l)) a t ->
  link_write_tracks rest h tracks l = if l_wt l =? 0 then check_link rest h (set_wt a l) else Ok (ERR_NONE, set_wt a l).
Proof.
  intros (r1 & r2 & -> & Ha & Hn & Ho). induction Ho as [|b r1 (u & Hu & Hb) _ IH]; cbn [app link_write_tracks].
  - rewrite Ha, (number_yes _ _ Hn). cbn [bind]. rewrite Z.eqb_refl. destruct (l_wt l =? 0); reflexivity.
  - rewrite Hu. destruct (number_other _ _ Hb) as (m & -> & Hm). cbn [bind]. rewrite Hm. exact IH.
Qed.
Lemma link_write_none h tracks l : no_track T h tracks (b_track (l_b l)) -> link_write_tracks rest h tracks l = Ok (ERR_INVALID_DATA, l).
Proof.
  unfold no_track. induction 1 as [|b r1 (u & Hu & Hb) _ IH]; cbn [link_write_tracks]; [reflexivity|].
  rewrite Hu. destruct (number_other _ _ Hb) as (m & -> & Hm). cbn [bind]. rewrite Hm. exact IH.
Qed.
Lemma check_plain h l t : h (l_rt l) = Some t -> uncompressed T t -> check_link rest h l = Ok (ERR_NONE, l).
Proof.
  intros Ht Hu. unfold check_link, encodings_of, child. rewrite Ht, kids_children. change ID_ContentEncodings with 28032. rewrite (find_no _ _ _ Hu). cbn [bind check_compression fst snd].
  destruct l; reflexivity.
Qed.
Lemma check_header h l t s st : h (l_rt l) = Some t -> declares T t s 3 (Some st) -> b_data (l_b l) = [] ->
  exists b', check_link rest h l = Ok (ERR_NONE, set_block b' l) /\ same_block (zlen st) (l_b l) b' /\ b_need b' = b_need (l_b l).
Proof.
  intros Ht Hd Hb. unfold check_link. rewrite Ht, (declares_encodings _ _ _ _ _ Hd). cbn [bind]. unfold check_compression. rewrite Hb.
  cbn [find_header en_children en_scope en_compr cp_algo cp_settings negb bind]. change (0 <? zlen (@nil Z)) with false. change (3 =? COMP_HEADERSTRIP) with true. cbn [bind fst snd].
  eexists. split; [reflexivity|]. split; [repeat split; cbn; try reflexivity; congruence|reflexivity].
Qed.

Lemma track_unique h tracks n a t : first_track T h tracks n a t -> no_track T h tracks n -> False.
Proof.
  intros (r1 & r2 & -> & Ha & (j & Hf & Hs) & _) Hn. unfold no_track in Hn. apply Forall_app in Hn. destruct Hn as [_ Hn]. apply Forall_cons_iff in Hn. destruct Hn as [(u & Hu & Ho) _].
  rewrite Ha in Hu. injection Hu as <-. destruct (number_other _ _ Ho) as (m & Em & Hm). rewrite (number_yes t n) in Em by (exists j; auto). injection Em as <-. rewrite Z.eqb_refl in Hm. discriminate.
Qed.

(** ** Clusters *)
Lemma link_info_ok inf l : l_rt (link_info inf l) = l_rt l /\ l_wt (link_info inf l) = l_wt l /\ l_ri (link_info inf l) = inf /\ l_wi (link_info inf l) = inf /\
  same_block0 (l_b l) (l_b (link_info inf l)).
Proof. unfold link_info. cbn [set_wi set_ri l_rt l_wt l_ri l_wi l_b]. repeat (split; [reflexivity|]). repeat apply same0_relinked. apply same0_refl. Qed.
Lemma same0_trans a b c : same_block0 a b -> same_block0 b c -> same_block0 a c.
Proof. unfold same_block0. intuition congruence. Qed.

Definition track_ok (h : Z -> option elt) (a : Z) : Prop := exists t, h a = Some t /\ uncompressed T t /\ (no_number T t \/ exists n, track_no T t n).
Lemma track_dec h tracks n : Forall (track_ok h) tracks -> no_track T h tracks n \/ exists a t, first_track T h tracks n a t /\ uncompressed T t.
Proof.
  induction 1 as [|a tracks (t & Ht & Hu & Hn) _ IH]; [left; constructor|].
  assert (D : other_no T n t \/ track_no T t n).
  { destruct Hn as [Hn|(m & Hm)]; [left; left; exact Hn|]. destruct (Z.eq_dec m n) as [->|Hne]; [right; exact Hm|left; right; exists m; auto]. }
  destruct D as [D|D].
  - destruct IH as [IH|(b & u & (r1 & r2 & -> & H1 & H2 & H3) & Hb)]; [left; constructor; [exists t; auto|exact IH]|].
    right. exists b, u. split; [|exact Hb]. exists (a :: r1), r2. split; [reflexivity|]. split; [exact H1|]. split; [exact H2|]. constructor; [exists t; auto|exact H3].
  - right. exists a, t. split; [|exact Hu]. exists [], tracks. split; [reflexivity|]. split; [exact Ht|]. split; [exact D|constructor].
Qed.
Lemma link_one h tracks inf l : Forall (track_ok h) tracks ->
  (exists err l', link_read_tracks rest h tracks true l = Ok (err, l') /\ err = ERR_NONE /\ linked T h tracks inf l (link_info inf l')) \/
  (link_read_tracks rest h tracks true l = Ok (ERR_INVALID_DATA, l) /\ unlinked T h tracks inf l (link_info inf l)).
Proof.
  intros Ht. destruct (track_dec h tracks (b_track (l_b l)) Ht) as [Hn|(a & t & Hf & Hu)].
  - right. split; [apply link_read_none, Hn|]. destruct (link_info_ok inf l) as (A & B & C & D & F). split; [exact Hn|]. auto.
  - left. assert (Ha : h a = Some t) by (destruct Hf as (? & ? & _ & Ha & _); exact Ha). destruct (relink_ok true a l) as (R1 & R2 & R3 & R4 & R5).
    assert (E : link_read_tracks rest h tracks true l = Ok (ERR_NONE, relink true a l)).
    { rewrite (link_read_first h tracks true l a t Hf). destruct (l_rt l =? 0); [|reflexivity]. apply (check_plain h _ t); [rewrite R1; exact Ha|exact Hu]. }
    eexists _, _. split; [exact E|]. split; [reflexivity|]. destruct (link_info_ok inf (relink true a l)) as (A & B & C & D & F).
    exists a, t. split; [exact Hf|]. rewrite A, B, C, D, R1, R2. repeat (split; [reflexivity|]). exact (same0_trans _ _ _ R5 F).
Qed.
Lemma link_group_none h tracks inf keep g : Forall (fun x => match x with GBlock _ => False | GOther _ => True end) g -> link_group rest h tracks inf keep g = Ok (Some g).
Proof. induction 1 as [|[l|e] g Hx _ IH]; cbn [link_group]; [reflexivity|contradiction|]. rewrite IH. reflexivity. Qed.
Lemma link_group_pre h tracks inf keep pre g : Forall (fun x => match x with GBlock _ => False | GOther _ => True end) pre ->
  link_group rest h tracks inf keep (pre ++ g) = do r <- link_group rest h tracks inf keep g; Ok (option_map (app pre) r).
Proof.
  induction 1 as [|[l|e] pre Hx _ IH]; cbn [app link_group]; [|contradiction|].
  - destruct (link_group rest h tracks inf keep g) as [| | |[|]]; reflexivity.
  - rewrite IH. destruct (link_group rest h tracks inf keep g) as [| | |[|]]; reflexivity.
Qed.
Lemma group_split (g : list gitem) : Forall (fun x => match x with GBlock _ => False | GOther _ => True end) g \/ exists pre l r, first_block g pre l r.
Proof.
  induction g as [|[l|e] g IH]; [left; constructor|right; exists [], l, g; apply (first_block_intro []); constructor|].
  destruct IH as [IH|(pre & l & r & H)]; [left; constructor; [exact I|exact IH]|]. right. exists (GOther e :: pre), l, r. destruct H as [pre l r H].
  apply (first_block_intro (GOther e :: pre)). constructor; [exact I|exact H].
Qed.
Lemma link_cluster_ok h tracks inf keep cl : Forall (track_ok h) tracks ->
  exists cl', link_cluster rest h tracks inf keep cl = Ok cl' /\ left_of T h tracks inf keep cl cl'.
Proof.
  intros Ht. induction cl as [|c cl (cl' & E & H)]; [exists []; split; [reflexivity|constructor]|]. cbn [link_cluster]. rewrite E.
  destruct c as [g|l|e]; cbn [link_item].
  - destruct (group_split g) as [Hg|(pre & l & r & Hg)].
    + rewrite (link_group_none _ _ _ _ _ Hg). cbn [bind option_map]. eexists. split; [reflexivity|]. apply left_group_none; assumption.
    + pose proof Hg as Hg'. destruct Hg' as [pre l r Hpre]. rewrite (link_group_pre _ _ _ _ _ _ Hpre). cbn [link_group].
      destruct (link_one h tracks inf l Ht) as [(err & l' & -> & -> & Hl)|(-> & Hl)]; cbn [bind fst snd].
      * change (negb (ERR_NONE =? ERR_NONE)) with false. cbn [andb bind option_map]. eexists. split; [reflexivity|].
        eapply left_group; [exact Hg|left; exact Hl|exact H].
      * change (negb (ERR_INVALID_DATA =? ERR_NONE)) with true. destruct keep; cbn [andb negb bind option_map]; eexists; (split; [reflexivity|]).
        -- eapply left_group; [exact Hg|right; split; [reflexivity|exact Hl]|exact H].
        -- eapply left_group_gone; [exact Hg|reflexivity|exact (proj1 Hl)|exact H].
  - destruct (link_one h tracks inf l Ht) as [(err & l' & -> & -> & Hl)|(-> & Hl)]; cbn [bind fst snd].
    + change (negb (ERR_NONE =? ERR_NONE)) with false. cbn [andb bind]. eexists. split; [reflexivity|]. apply left_simple; [left; exact Hl|exact H].
    + change (negb (ERR_INVALID_DATA =? ERR_NONE)) with true. destruct keep; cbn [andb negb bind]; eexists; (split; [reflexivity|]).
      * apply left_simple; [right; split; [reflexivity|exact Hl]|exact H].
      * apply left_simple_gone; [reflexivity|exact (proj1 Hl)|exact H].
  - cbn [bind]. eexists. split; [reflexivity|]. apply left_other, H.
Qed.
End Proofs.
