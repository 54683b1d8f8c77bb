(** Proofs about marks, lacing flags and the compression of tracks. *)
From Verif Require Import Base BaseProofs IntEltProofs Vint EbmlId Ebml Tree TreeRead Create CreateProofs Str StrSpec StrProofs Durations DurationsSpec DurationsProofs Frame Block BlockTime Cues CuesSpec CuesProofs CuesProofs2 Tracks TracksSpec TracksProofs TracksProofs2 Encode EncodeSpec.

(** ** Marks and lacing *)
Lemma set_laced_ok : forall w n, (n < length w)%nat ->
  exists w', set_laced w n = Some w' /\ length w' = length w /\ forall k, nth_error w' k = if (k =? n)%nat then Some true else nth_error w k.
Proof.
  induction w as [|x w IH]; intros n Hn; cbn [length] in Hn; [lia|]. destruct n as [|n]; cbn [set_laced].
  - eexists. split; [reflexivity|]. split; [reflexivity|]. intros [|k]; reflexivity.
  - destruct (IH n ltac:(lia)) as (w' & -> & L & K). eexists. split; [reflexivity|]. split; [cbn [length]; lia|]. intros [|k]; [reflexivity|]. cbn [nth_error Nat.eqb]. apply K.
Qed.
Definition in_range (w : list bool) (b : mblock) : Prop := m_type b <> None /\ 0 <= m_num b < zlen w.
Lemma mark_block_ok w b : in_range w b -> exists w' b', mark_block w b = Ok (w', b') /\ marked b b' /\ length w' = length w /\
  forall k, nth_error w' k = Some true <-> (nth_error w k = Some true \/ (k = Z.to_nat (m_num b) /\ 1 < m_frames b)).
Proof.
  intros [Ht Hn]. unfold mark_block. destruct b as [n ty fr key disc]. cbn [m_num m_type m_frames m_key m_disc] in *. destruct ty as [ty|]; [|contradiction].
  set (b' := if (ty =? MATROSKA_TRACK_TYPE_AUDIO) || (ty =? MATROSKA_TRACK_TYPE_SUBTITLE) then mkMB n (Some ty) fr true false else mkMB n (Some ty) fr key disc).
  assert (M : marked (mkMB n (Some ty) fr key disc) b' /\ m_frames b' = fr /\ m_num b' = n).
  { subst b'. unfold MATROSKA_TRACK_TYPE_AUDIO, MATROSKA_TRACK_TYPE_SUBTITLE. destruct (Z.eqb_spec ty 2), (Z.eqb_spec ty 17); cbn [orb];
    (split; [|split; reflexivity]); (split; [reflexivity|]); (split; [reflexivity|]); (split; [reflexivity|]); cbn [m_type m_key m_disc]; (split; [intros [K|K]|intros K1 K2]); try (split; reflexivity); try congruence; exfalso; congruence. }
  destruct M as (M & Mf & Mn). cbv zeta. rewrite Mf, Mn. destruct (Z.ltb_spec 1 fr) as [L|L].
  - destruct (set_laced_ok w (Z.to_nat n)) as (w' & -> & Lw & K); [unfold zlen in Hn; lia|]. exists w', b'. split; [reflexivity|]. split; [exact M|]. split; [exact Lw|].
    intros k. rewrite K. destruct (Nat.eqb_spec k (Z.to_nat n)) as [->|]; [split; auto|]. split; [auto|]. intros [H|[H _]]; [exact H|contradiction].
  - exists w, b'. split; [reflexivity|]. split; [exact M|]. split; [reflexivity|]. intros k. split; [auto|]. intros [H|[_ H]]; [exact H|lia].
Qed.
Lemma mark_all_ok : forall l w, Forall (in_range w) (blocks_of l) -> exists w' l', mark_all w l = Ok (w', l') /\ Forall2 marked_item l l' /\ length w' = length w /\
  forall k, nth_error w' k = Some true <-> (nth_error w k = Some true \/ exists b, In b (blocks_of l) /\ k = Z.to_nat (m_num b) /\ 1 < m_frames b).
Proof.
  induction l as [|i l IH]; intros w H; cbn [mark_all].
  - exists w, []. split; [reflexivity|]. split; [constructor|]. split; [reflexivity|]. intros k. split; [auto|]. intros [K|(b & [] & _)]. exact K.
  - cbn [blocks_of flat_map] in H. fold (blocks_of l) in H. apply Forall_app in H. destruct H as [H1 H2].
    assert (ST : exists w1 i', match i with
              | MGroup (Some b) => do r <- mark_block w b; Ok (fst r, MGroup (Some (snd r)))
              | MSimple b => do r <- mark_block w b; Ok (fst r, MSimple (snd r))
              | _ => Ok (w, i)
              end = Ok (w1, i') /\ marked_item i i' /\ length w1 = length w /\
       forall k, nth_error w1 k = Some true <-> (nth_error w k = Some true \/ exists b, In b (match i with MGroup (Some b) => [b] | MSimple b => [b] | _ => [] end) /\ k = Z.to_nat (m_num b) /\ 1 < m_frames b)).
    { destruct i as [[b|]|b|].
      - apply Forall_cons_iff in H1. destruct (mark_block_ok w b (proj1 H1)) as (w1 & b' & -> & M & Lw & K). cbn [bind fst snd]. exists w1, (MGroup (Some b')). split; [reflexivity|]. split; [constructor; exact M|]. split; [exact Lw|].
        intros k. rewrite K. split; intros [X|X]; auto; [right; exists b; split; [left; reflexivity|exact X]|]. destruct X as (b0 & [<-|[]] & X). auto.
      - exists w, (MGroup None). split; [reflexivity|]. split; [constructor|]. split; [reflexivity|]. intros k. split; [auto|]. intros [X|(b & [] & _)]; exact X.
      - apply Forall_cons_iff in H1. destruct (mark_block_ok w b (proj1 H1)) as (w1 & b' & -> & M & Lw & K). cbn [bind fst snd]. exists w1, (MSimple b'). split; [reflexivity|]. split; [constructor; exact M|]. split; [exact Lw|].
        intros k. rewrite K. split; intros [X|X]; auto; [right; exists b; split; [left; reflexivity|exact X]|]. destruct X as (b0 & [<-|[]] & X). auto.
      - exists w, MOther. split; [reflexivity|]. split; [constructor|]. split; [reflexivity|]. intros k. split; [auto|]. intros [X|(b & [] & _)]; exact X. }
    destruct ST as (w1 & i' & -> & M & Lw & K). cbn [bind fst snd].
    destruct (IH w1) as (w2 & l' & -> & M2 & L2 & K2).
    { eapply Forall_impl; [|exact H2]. intros b [A B]. split; [exact A|]. unfold zlen in *. lia. }
    cbn [bind fst snd]. exists w2, (i' :: l'). split; [reflexivity|]. split; [constructor; assumption|]. split; [lia|].
    intros k. rewrite K2, K. cbn [blocks_of flat_map]. fold (blocks_of l). split.
    + intros [[X|(b & Hb & X)]|(b & Hb & X)]; [left; exact X|right; exists b; split; [apply in_or_app; left; exact Hb|exact X]|right; exists b; split; [apply in_or_app; right; exact Hb|exact X]].
    + intros [X|(b & Hb & X)]; [auto|]. apply in_app_or in Hb. destruct Hb as [Hb|Hb]; [left; right; exists b; auto|right; exists b; auto].
Qed.

Lemma max_fold : forall l i, i <= fold_left (fun i t => match l_num t with Some n => Z.max i (s32 n) | None => i end) l i /\
  forall t n, In t l -> l_num t = Some n -> s32 n <= fold_left (fun i t => match l_num t with Some n => Z.max i (s32 n) | None => i end) l i.
Proof.
  induction l as [|t l IH]; intros i; cbn [fold_left]; [split; [lia|intros t n []]|].
  destruct (IH (match l_num t with Some n => Z.max i (s32 n) | None => i end)) as [A B]. split.
  - destruct (l_num t); lia.
  - intros t' n [<-|H] E; [rewrite E in A |- *; lia|exact (B t' n H E)].
Qed.
Lemma fix_all_ok w : forall l, (forall t n, In t l -> l_num t = Some n -> 0 <= n < zlen w) ->
  exists l', fix_all w l = Ok l' /\ Forall2 (fun t t' => l_num t' = l_num t /\
    match l_num t with None => l_flag t' = l_flag t | Some n => l_flag t' = if (if nth_error w (Z.to_nat n) then match nth_error w (Z.to_nat n) with Some true => true | _ => false end else false) then None else Some 0 end) l l'.
Proof.
  induction l as [|t l IH]; intros H; cbn [fix_all]; [exists []; split; [reflexivity|constructor]|].
  destruct IH as (l' & El & Hl); [intros t' n Ht; apply H; right; exact Ht|].
  unfold fix_lacing. destruct (l_num t) as [n|] eqn:En.
  - pose proof (H t n (or_introl eq_refl) En) as Hn. replace (n <? 0) with false by lia.
    destruct (nth_error w (Z.to_nat n)) as [b|] eqn:Eb; [|apply nth_error_None in Eb; unfold zlen in Hn; lia].
    destruct b; cbn [bind]; rewrite El; cbn [bind]; eexists; (split; [reflexivity|]); constructor; try exact Hl; cbn [l_num l_flag]; rewrite ?En, ?Eb; split; reflexivity.
  - cbn [bind]. rewrite El. cbn [bind]. eexists. split; [reflexivity|]. constructor; [|exact Hl]. rewrite En. split; reflexivity.
Qed.

Lemma nth_false n k : nth_error (repeat false n) k <> Some true.
Proof. intros H. apply nth_error_In in H. apply repeat_spec in H. discriminate H. Qed.
Lemma lacing_ok profile items l :
  (forall t n, In t l -> l_num t = Some n -> 0 <= n < 2 ^ 31 - 1) ->
  Forall (fun b => m_type b <> None /\ exists t, In t l /\ l_num t = Some (m_num b)) (blocks_of items) ->
  ~ ((profile = 1 \/ profile = 16) /\ exists b, In (MSimple b) items) ->
  exists items' l', lacing_flags profile items l = Ok (0, items', l') /\ Forall2 marked_item items items' /\
    Forall2 (fun t t' => l_num t' = l_num t /\ forall n, l_num t = Some n -> (laced n items -> l_flag t' = None) /\ (~ laced n items -> l_flag t' = Some 0)) l l'.
Proof.
  intros Hl Hb Hp. unfold lacing_flags, link_clusters.
  assert (P : ((profile =? PROFILE_MATROSKA_V1) || (profile =? PROFILE_DIVX)) && existsb is_simple items = false).
  { apply not_true_is_false. intros K. apply andb_true_iff in K. destruct K as [K1 K2]. apply Hp. unfold PROFILE_MATROSKA_V1, PROFILE_DIVX in K1. split; [lia|].
    apply existsb_exists in K2. destruct K2 as ([| b |] & Hi & Hs); try discriminate. exists b. exact Hi. }
  rewrite P. clear P.
  assert (S : forall n, 0 <= n < 2 ^ 31 - 1 -> s32 n = n) by (intros n Hn; unfold s32; apply s_wrap_small; [lia|change (32 - 1) with 31; lia]).
  assert (R : forall t n, In t l -> l_num t = Some n -> 0 <= n < zlen (new_tracks l)).
  { intros t n Ht En. pose proof (Hl t n Ht En) as Hn. destruct (max_fold l (-1)) as [_ M]. specialize (M t n Ht En). rewrite (S n Hn) in M.
    unfold new_tracks, max_num, zlen. rewrite repeat_length. lia. }
  destruct (mark_all_ok items (new_tracks l)) as (w & items' & -> & M & Lw & K).
  { eapply Forall_impl; [|exact Hb]. intros b (Ht & t & Hin & En). split; [exact Ht|exact (R t _ Hin En)]. }
  cbn [bind fst snd negb Z.eqb]. destruct (fix_all_ok w l) as (l' & -> & F).
  { intros t n Ht En. pose proof (R t n Ht En). unfold zlen in *. lia. }
  cbn [bind]. exists items', l'. split; [reflexivity|]. split; [exact M|].
  assert (KK : forall n, 0 <= n -> (nth_error w (Z.to_nat n) = Some true <-> laced n items)).
  { intros n Hn. rewrite K. split.
    - intros [X|(b & Hi & En & Hf)]; [elim (nth_false _ _ X)|]. exists b. split; [exact Hi|]. split; [|exact Hf].
      rewrite Forall_forall in Hb. destruct (Hb b Hi) as (_ & t & Hin & Et). pose proof (Hl t _ Hin Et). lia.
    - intros (b & Hi & En & Hf). right. exists b. split; [exact Hi|]. split; [rewrite En; reflexivity|exact Hf]. }
  clear -F KK Hl. induction F as [|t t' l l' [H1 H2] F IH]; constructor; [|apply IH; intros u n Hu; apply Hl; right; exact Hu].
  split; [exact H1|]. intros n En. rewrite En in H2. pose proof (Hl t n (or_introl eq_refl) En) as Hn. specialize (KK n ltac:(lia)).
  rewrite H2. destruct (nth_error w (Z.to_nat n)) as [[|]|]; split; intros X; try reflexivity; exfalso.
  - apply X, KK. reflexivity.
  - apply KK in X. discriminate X.
  - apply KK in X. discriminate X.
Qed.
Lemma refused profile items l : (profile = 1 \/ profile = 16) -> (exists b, In (MSimple b) items) -> lacing_flags profile items l = Ok (-32, items, l).
Proof.
  intros Hp (b & Hb). unfold lacing_flags, link_clusters. unfold PROFILE_MATROSKA_V1, PROFILE_DIVX.
  replace ((profile =? 1) || (profile =? 16)) with true by lia. replace (existsb is_simple items) with true; [reflexivity|].
  symmetry. apply existsb_exists. exists (MSimple b). split; [exact Hb|reflexivity].
Qed.
