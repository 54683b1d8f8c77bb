(** Proofs about mkvalidator: blocks. *)
From Verif Require Import Base BaseProofs Vint EbmlId EbmlIdSpec EbmlIdProofs IntElt IntEltSpec IntEltProofs EltHead Ebml Stream Tree TreeRead TreeSpec TreeProofs Create CreateSpec CreateProofs Frame BlockTime BlockTimeProofs Cues CuesSpec CuesProofs CuesProofs2 Str StrSpec MkSchema MkSpec MkProofs Validator ValidatorSpec ValidatorProofs ValidatorProofs2 ValidatorProofs4.

Lemma find_track_ok td prof n tracks : Forall (elem cTrackEntry) tracks -> exists r, find_track td prof n tracks = Ok r /\
  match r with Some t => track_of tracks (s16 n) t /\ elem cTrackEntry t | None => Forall (fun x => ~ int_is cTrackNumber x (s16 n)) tracks end.
Proof.
  induction tracks as [|t l IH]; intros HF; cbn [find_track]; [exists None; split; [reflexivity|constructor]|].
  apply Forall_cons_iff in HF. destruct HF as [F1 F2]. destruct (got_int_ok td prof _ t cTrackNumber F1 ltac:(mk_side) ltac:(mk_side) ltac:(mk_side)) as (v & -> & Hv & _). cbn [bind].
  destruct (Z.eqb_spec v (s16 n)) as [->|N].
  - eexists. split; [reflexivity|]. split; [|exact F1]. exists [], l. split; [reflexivity|]. split; [exact Hv|constructor].
  - assert (N' : ~ int_is cTrackNumber t (s16 n)) by (intros H; apply N; eapply int_fun; eassumption).
    destruct (IH F2) as (r & -> & Hr). exists r. split; [reflexivity|]. destruct r as [x|].
    + destruct Hr as [(a & b & -> & H1 & H2) He]. split; [|exact He]. exists (t :: a), b. split; [reflexivity|]. split; [exact H1|]. constructor; assumption.
    + constructor; assumption.
Qed.
Lemma track_of_fun tracks n t t' : track_of tracks n t -> track_of tracks n t' -> t = t'.
Proof.
  intros (a & b & -> & H1 & H2) (a' & b' & E & H1' & H2'). revert a' E H2'. induction a as [|x a IH]; intros [|y a'] E H2'; cbn [app] in E.
  - congruence.
  - injection E as -> E. apply Forall_cons_iff in H2'. destruct H2'. contradiction.
  - injection E as -> E. apply Forall_cons_iff in H2. destruct H2. contradiction.
  - injection E as -> E. apply Forall_cons_iff in H2, H2'. apply (IH (proj2 H2) a' E (proj2 H2')).
Qed.
Lemma track_of_none tracks n t : track_of tracks n t -> Forall (fun x => ~ int_is cTrackNumber x n) tracks -> False.
Proof. intros (a & b & -> & H1 & _) H. rewrite Forall_forall in H. apply (H t); [apply in_elt|exact H1]. Qed.
Lemma s16_low n : 0 <= n < 2 ^ 15 -> s16 n = n.
Proof. intros. apply s16_small. lia. Qed.
Lemma s16_low2 n : 0 <= n < 2 ^ 15 -> s16 (s16 n) = n.
Proof. intros. rewrite !s16_low; rewrite ?s16_low; lia. Qed.
Lemma track_video_ok td prof tracks n : Forall (elem cTrackEntry) tracks -> 0 <= n < 2 ^ 15 -> exists b : bool, track_video td prof tracks n = Ok b /\ (b = true <-> video_num tracks n).
Proof.
  intros HF Hn. unfold track_video, video_num. destruct (find_track_ok td prof n tracks HF) as (r & -> & Hr). rewrite (s16_low n Hn) in Hr. cbn [bind]. destruct r as [t|].
  - destruct Hr as [H1 H2]. destruct (got_int_ok td prof _ t cTrackType H2 ltac:(mk_side) ltac:(mk_side) ltac:(mk_side)) as (v & -> & Hv & _). cbn [bind]. eexists. split; [reflexivity|]. unfold TRACK_VIDEO. split.
    + intros E. exists t. split; [exact H1|]. replace 1 with v by lia. exact Hv.
    + intros (t' & H1' & Hv'). rewrite <- (track_of_fun _ _ _ _ H1 H1') in Hv'. pose proof (int_fun _ _ _ _ Hv Hv'). lia.
  - exists false. split; [reflexivity|]. split; [discriminate|]. intros (t & H & _). destruct (track_of_none _ _ _ H Hr).
Qed.
Lemma track_laced_ok td prof tracks n : Forall (elem cTrackEntry) tracks -> 0 <= n < 2 ^ 15 -> exists b : bool, track_laced td prof tracks (s16 n) = Ok b /\ (b = false <-> exists t, track_of tracks n t /\ int_is cFlagLacing t 0).
Proof.
  intros HF Hn. unfold track_laced. destruct (find_track_ok td prof (s16 n) tracks HF) as (r & -> & Hr). rewrite (s16_low2 n Hn) in Hr. cbn [bind]. destruct r as [t|].
  - destruct Hr as [H1 H2]. destruct (got_int_ok td prof _ t cFlagLacing H2 ltac:(mk_side) ltac:(mk_side) ltac:(mk_side)) as (v & -> & Hv & _). cbn [bind]. eexists. split; [reflexivity|]. split.
    + intros E. exists t. split; [exact H1|]. replace 0 with v by lia. exact Hv.
    + intros (t' & H1' & Hv'). rewrite <- (track_of_fun _ _ _ _ H1 H1') in Hv'. pose proof (int_fun _ _ _ _ Hv Hv'). lia.
  - exists true. split; [reflexivity|]. split; [discriminate|]. intros (t & H & _). destruct (track_of_none _ _ _ H Hr).
Qed.
Lemma needs_key_ok td prof tracks n : Forall (elem cTrackEntry) tracks -> 0 <= n < 2 ^ 15 -> exists b : bool, needs_key td prof tracks (s16 n) = Ok b /\ (b = true <-> exists t, track_of tracks n t /\ all_keys t).
Proof.
  intros HF Hn. unfold needs_key, all_keys. destruct (find_track_ok td prof (s16 n) tracks HF) as (r & -> & Hr). rewrite (s16_low2 n Hn) in Hr. cbn [bind]. destruct r as [t|].
  - destruct Hr as [H1 H2]. destruct (got_int_ok td prof _ t cTrackType H2 ltac:(mk_side) ltac:(mk_side) ltac:(mk_side)) as (v & -> & Hv & _). cbn [bind]. unfold TRACK_VIDEO, TRACK_AUDIO.
    destruct (Z.eqb_spec v 1) as [->|N1]; [|destruct (Z.eqb_spec v 2) as [->|N2]].
    + exists false. split; [reflexivity|]. split; [discriminate|]. intros (t' & H1' & k & Hk & N & _). rewrite <- (track_of_fun _ _ _ _ H1 H1') in Hk. pose proof (int_fun _ _ _ _ Hv Hk). lia.
    + destruct (got_text td prof _ t cCodecID H2 ltac:(mk_side) ltac:(mk_side) ltac:(mk_side)) as (s & Hs & His & Hp). destruct (got td prof cCodecID t) as [| | |d]; try discriminate. cbn [bind] in Hs |- *. rewrite Hs. cbn [bind].
      destruct (same_name_ok s TRUEHD_NAME Hp ltac:(unfold TRUEHD_NAME; repeat (constructor; [lia|]); constructor)) as (b & Hb & Eb). change A_TRUEHD with TRUEHD_NAME. rewrite Hb. cbn [bind]. exists (negb b). split; [reflexivity|]. rewrite negb_true_iff. split.
      * intros ->. exists t. split; [exact H1|]. exists 2. split; [exact Hv|]. split; [lia|]. intros _. exists s. split; [exact His|]. intros H. apply Eb in H. discriminate.
      * intros (t' & H1' & k & Hk & N & Hc). rewrite <- (track_of_fun _ _ _ _ H1 H1') in *. pose proof (int_fun _ _ _ _ Hv Hk) as <-. destruct (Hc eq_refl) as (s' & Hs' & Hn'). rewrite <- (text_fun _ _ _ _ His Hs') in Hn'. destruct b; [exfalso; apply Hn'; apply Eb; reflexivity|reflexivity].
    + exists true. split; [reflexivity|]. split; [|reflexivity]. intros _. exists t. split; [exact H1|]. exists v. split; [exact Hv|]. split; [exact N1|lia].
  - exists false. split; [reflexivity|]. split; [discriminate|]. intros (t & H & _). destruct (track_of_none _ _ _ H Hr).
Qed.

(** Lacing and key frames. *)
Definition sum_lens (l : list Z) : Z := fold_left Z.add l 0.
Lemma fold_add l : forall a, fold_left Z.add l a = a + sum_lens l.
Proof. unfold sum_lens. induction l as [|x l IH]; intros a; cbn [fold_left]; [lia|]. rewrite IH, (IH (0 + x)). lia. Qed.
Definition grown (n : Z) (k : Z) (t : tinfo) : tinfo := if ti_num t =? n then mkTI (ti_num t) (ti_len t + k) else t.
Lemma grow_ok n lens ti : NoDup (map ti_num ti) -> grow n lens ti = (if existsb (Z.eqb n) (map ti_num ti) then Some (map (grown n (sum_lens lens)) ti) else None).
Proof.
  induction ti as [|t ti IH]; intros HN; cbn [grow map existsb]; [reflexivity|]. cbn [map] in HN. apply NoDup_cons_iff in HN. destruct HN as [N1 N2]. unfold grown at 1. rewrite (Z.eqb_sym n). destruct (Z.eqb_spec (ti_num t) n) as [E|E]; cbn [orb].
  - rewrite fold_add. do 2 f_equal. rewrite <- (map_id ti) at 1. apply map_ext_in. intros x Hx. unfold grown. replace (ti_num x =? n) with false; [reflexivity|]. symmetry. apply Z.eqb_neq. intros Q. apply N1. rewrite E, <- Q. apply in_map. exact Hx.
  - rewrite IH by exact N2. destruct (existsb _ _); reflexivity.
Qed.
Lemma grown_nums n k ti : map ti_num (map (grown n k) ti) = map ti_num ti.
Proof. rewrite map_map. apply map_ext. intros t. unfold grown. destruct (_ =? _); reflexivity. Qed.
Lemma existsb_in n l : existsb (Z.eqb n) l = true <-> In n l.
Proof. rewrite existsb_exists. split; [intros (x & Hx & E); apply Z.eqb_eq in E; subst; exact Hx|intros H; exists n; split; [exact H|apply Z.eqb_refl]]. Qed.
Lemma lacing_ok td prof tracks : Forall (elem cTrackEntry) tracks -> forall l ti, Forall low_track l -> NoDup (map ti_num ti) -> exists ms,
  lacing_blocks td prof tracks ti l = Ok (ms, map (fun t => mkTI (ti_num t) (ti_len t + total (ti_num t) l)) ti) /\ forall m, In m ms <->
   (m = Err 0xB2 /\ exists b, In b l /\ ~ In (vb_track b) (map ti_num ti)) \/
   (m = Err 0xB0 /\ exists b t, In b l /\ In (vb_track b) (map ti_num ti) /\ vb_laced b = true /\ track_of tracks (vb_track b) t /\ int_is cFlagLacing t 0) \/
   (m = Err 0xB1 /\ exists b t, In b l /\ In (vb_track b) (map ti_num ti) /\ vb_key b = false /\ track_of tracks (vb_track b) t /\ all_keys t).
Proof.
  intros HF. induction l as [|b l IH]; intros ti HL HN; cbn [lacing_blocks total].
  - exists []. split. { rewrite <- (map_id ti) at 1. do 2 f_equal. apply map_ext. intros [x y]. cbn [ti_num ti_len]. f_equal. lia. }
    intros m. split; [intros []|]. intros [(_ & b & [] & _)|[(_ & b & t & [] & _)|(_ & b & t & [] & _)]].
  - apply Forall_cons_iff in HL. destruct HL as [L1 L2]. unfold low_track in L1.
    assert (HB : exists mb, lacing_block td prof tracks ti b = Ok (mb, map (grown (vb_track b) (sum_lens (vb_lens b))) ti) /\ forall m, In m mb <->
      (m = Err 0xB2 /\ ~ In (vb_track b) (map ti_num ti)) \/
      (m = Err 0xB0 /\ exists t, In (vb_track b) (map ti_num ti) /\ vb_laced b = true /\ track_of tracks (vb_track b) t /\ int_is cFlagLacing t 0) \/
      (m = Err 0xB1 /\ exists t, In (vb_track b) (map ti_num ti) /\ vb_key b = false /\ track_of tracks (vb_track b) t /\ all_keys t)).
    { unfold lacing_block. cbv zeta. rewrite !(s16_low _ L1). rewrite grow_ok by exact HN. destruct (existsb (Z.eqb (vb_track b)) (map ti_num ti)) eqn:X.
      - apply existsb_in in X. destruct (track_laced_ok td prof tracks (vb_track b) HF L1) as (bl & Xl & El). destruct (needs_key_ok td prof tracks (vb_track b) HF L1) as (bk & Xk & Ek). rewrite (s16_low _ L1) in Xl, Xk. rewrite Xl, Xk. cbn [bind].
        exists ((if vb_laced b then when (negb bl) (Err 0xB0) else []) ++ (if vb_key b then [] else when bk (Err 0xB1))). split; [destruct (vb_laced b), (vb_key b); reflexivity|]. intros m. rewrite in_app_iff. split.
        + intros [H|H].
          * destruct (vb_laced b); [|destruct H]. unfold when in H. destruct bl; [destruct H|]. destruct H as [<-|[]]. destruct (proj1 El eq_refl) as (t & H1 & H2). right; left. split; [reflexivity|]. exists t. auto.
          * destruct (vb_key b); [destruct H|]. unfold when in H. destruct bk; [|destruct H]. destruct H as [<-|[]]. destruct (proj1 Ek eq_refl) as (t & H1 & H2). right; right. split; [reflexivity|]. exists t. auto.
        + intros [(_ & H)|[(-> & t & _ & -> & H1 & H2)|(-> & t & _ & -> & H1 & H2)]]; [contradiction|left|right].
          * rewrite (proj2 El) by eauto. left. reflexivity.
          * rewrite (proj2 Ek) by eauto. left. reflexivity.
      - assert (N : ~ In (vb_track b) (map ti_num ti)) by (intros H; apply existsb_in in H; congruence).
        exists [Err 0xB2]. split.
        + f_equal. f_equal. rewrite <- (map_id ti) at 1. apply map_ext_in. intros x Hx. unfold grown. replace (ti_num x =? vb_track b) with false; [reflexivity|]. symmetry. apply Z.eqb_neq. intros Q. apply N. rewrite <- Q. apply in_map. exact Hx.
        + intros m. cbn [In]. split; [intros [<-|[]]; left; auto|]. intros [(-> & _)|[(_ & t & H & _)|(_ & t & H & _)]]; [left; reflexivity|contradiction..]. }
    destruct HB as (mb & -> & Eb). cbn [bind fst snd]. destruct (IH (map (grown (vb_track b) (sum_lens (vb_lens b))) ti) L2 ltac:(rewrite grown_nums; exact HN)) as (ms & -> & Es). cbn [bind fst snd]. rewrite grown_nums in Es.
    exists (mb ++ ms). split.
    + f_equal. f_equal. rewrite map_map. apply map_ext. intros t. unfold grown. rewrite (Z.eqb_sym (vb_track b)). destruct (ti_num t =? vb_track b); cbn [ti_num ti_len]; f_equal; unfold sum_lens; lia.
    + intros m. rewrite in_app_iff, Eb, Es. split.
      * intros [[(-> & H)|[(-> & t & H)|(-> & t & H)]]|[(-> & b' & H1 & H)|[(-> & b' & t & H1 & H)|(-> & b' & t & H1 & H)]]].
        -- left. split; [reflexivity|]. exists b. split; [left; reflexivity|exact H].
        -- right; left. split; [reflexivity|]. exists b, t. split; [left; reflexivity|exact H].
        -- right; right. split; [reflexivity|]. exists b, t. split; [left; reflexivity|exact H].
        -- left. split; [reflexivity|]. exists b'. split; [right; exact H1|exact H].
        -- right; left. split; [reflexivity|]. exists b', t. split; [right; exact H1|exact H].
        -- right; right. split; [reflexivity|]. exists b', t. split; [right; exact H1|exact H].
      * intros [(-> & b' & [<-|H1] & H)|[(-> & b' & t & [<-|H1] & H)|(-> & b' & t & [<-|H1] & H)]]; [left; left|right; left|left; right; left|right; right; left|left; right; right|right; right; right]; (split; [reflexivity|]); eauto.
Qed.
