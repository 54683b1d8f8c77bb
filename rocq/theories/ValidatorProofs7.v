(** Proofs about mkvalidator: the start of video tracks, cue points. *)
From Verif Require Import Base BaseProofs Vint EbmlId EbmlIdSpec EbmlIdProofs IntElt IntEltSpec IntEltProofs EltHead Ebml Stream Tree TreeRead TreeSpec TreeProofs Create CreateSpec CreateProofs Frame BlockTime BlockTimeProofs Cues CuesSpec CuesProofs CuesProofs2 Str StrSpec MkSchema MkSpec MkProofs Validator ValidatorSpec ValidatorProofs ValidatorProofs2 ValidatorProofs4 ValidatorProofs6.
From Verif Require PropCues.

Lemma put_len {A} (x : A) : forall l n, length (put n x l) = length l.
Proof. induction l as [|y l IH]; intros [|n]; cbn [put length]; auto. Qed.
Lemma put_nth {A} (x d : A) : forall l n m, (n < length l)%nat -> nth m (put n x l) d = if (m =? n)%nat then x else nth m l d.
Proof.
  induction l as [|y l IH]; intros n m Hn; cbn [length] in Hn; [lia|]. destruct n as [|n], m as [|m]; cbn [put nth Nat.eqb]; try reflexivity. apply IH. lia.
Qed.
(** What is kept of one track: whether a key frame was seen, and the position noted. *)
Definition one (cpos : Z) (st : bool * Z) (b : vblock) : bool * Z :=
  let k := fst st || vb_key b in (k, if negb k && (snd st =? 0) then cpos else snd st).
Definition of_track (n : Z) (l : list vblock) : list vblock := filter (fun b => vb_track b =? n) l.
Lemma one_key cpos l : forall st, fst st = true -> fold_left (one cpos) l st = st.
Proof. induction l as [|b l IH]; intros [k f] H; cbn [fst] in H; subst k; cbn [fold_left one fst snd orb negb andb]; auto. Qed.
Lemma one_ok cpos l : forall st, fst (fold_left (one cpos) l st) = fst st || existsb vb_key l.
Proof. induction l as [|b l IH]; intros st; cbn [fold_left existsb]; [rewrite orb_false_r; reflexivity|]. rewrite IH. cbn [one fst]. rewrite orb_assoc. reflexivity. Qed.
Lemma one_pos cpos l : forall f, f <> 0 -> snd (fold_left (one cpos) l (false, f)) = f.
Proof.
  induction l as [|b l IH]; intros f Hf; cbn [fold_left]; [reflexivity|]. unfold one at 2. cbn [fst snd orb]. replace (f =? 0) with false by lia. rewrite andb_false_r. destruct (vb_key b); [rewrite one_key; reflexivity|apply IH; exact Hf].
Qed.
Lemma one_zero l : forall k, snd (fold_left (one 0) l (k, 0)) = 0.
Proof. induction l as [|b l IH]; intros k; cbn [fold_left]; [reflexivity|]. unfold one at 2. cbn [fst snd]. destruct (_ && _); apply IH. Qed.
Lemma one_start cpos l : snd (fold_left (one cpos) l (false, 0)) <> 0 <-> cpos <> 0 /\ exists b r, l = b :: r /\ vb_key b = false.
Proof.
  destruct (Z.eq_dec cpos 0) as [->|N]; [rewrite one_zero; tauto|]. destruct l as [|b l]; cbn [fold_left snd]; [split; [lia|intros (_ & b & r & [=] & _)]|]. unfold one at 2. cbn [fst snd orb]. change (0 =? 0) with true. rewrite andb_true_r. destruct (vb_key b) eqn:K; cbn [negb].
  - rewrite one_key by reflexivity. cbn [snd]. split; [lia|]. intros (_ & b' & r & [= <- _] & H). congruence.
  - rewrite one_pos by exact N. split; [|auto]. intros _. split; [exact N|]. eauto.
Qed.
Lemma late_of l n : late_key l n <-> (exists b r, of_track n l = b :: r /\ vb_key b = false) /\ existsb vb_key (of_track n l) = true.
Proof.
  unfold late_key. split.
  - intros (a & b & c & d & e & -> & Ha & Hb & Kb & Hd & Kd). unfold of_track. rewrite filter_app.
    assert (Fa : filter (fun x => vb_track x =? n) a = []). { clear - Ha. induction a as [|x a IH]; [reflexivity|]. apply Forall_cons_iff in Ha. cbn [filter]. replace (vb_track x =? n) with false by lia. apply IH. apply Ha. }
    rewrite Fa. cbn [app filter]. rewrite (proj2 (Z.eqb_eq _ _) Hb). split; [eauto|]. cbn [existsb]. rewrite Kb, filter_app. cbn [filter]. rewrite (proj2 (Z.eqb_eq _ _) Hd). rewrite existsb_app. cbn [existsb]. rewrite Kd. apply orb_true_r.
  - intros [(b & r & E & Kb) H]. rewrite E in H. cbn [existsb] in H. rewrite Kb in H. cbn [orb] in H.
    assert (S : exists a t, l = a ++ b :: t /\ Forall (fun x => vb_track x <> n) a /\ vb_track b = n /\ of_track n t = r).
    { clear H. revert E. induction l as [|x l IH]; intros E; [discriminate|]. unfold of_track in E. cbn [filter] in E. destruct (Z.eqb_spec (vb_track x) n) as [Q|Q].
      - injection E as -> E. exists [], l. split; [reflexivity|]. split; [constructor|]. split; [exact Q|exact E].
      - destruct (IH E) as (a & t & -> & Ha & Hb & Ht). exists (x :: a), t. split; [reflexivity|]. split; [constructor; assumption|auto]. }
    destruct S as (a & t & -> & Ha & Hb & Ht). apply existsb_exists in H. destruct H as (d & Hd & Kd). rewrite <- Ht in Hd. unfold of_track in Hd. apply filter_In in Hd. destruct Hd as [Hd Hn]. apply in_split in Hd. destruct Hd as (c & e & ->).
    exists a, b, c, d, e. split; [reflexivity|]. split; [exact Ha|]. split; [exact Hb|]. split; [exact Kb|]. split; [lia|exact Kd].
Qed.
Section V.
Context (td : Z -> Z) (prof : Z) (tracks : list elt) (count : Z).
Context (HT : Forall (elem cTrackEntry) tracks) (HC : 0 <= count) (HM : forall t v, In t tracks -> int_is cTrackNumber t v -> 0 <= v < 2 ^ 15 -> v < count).
Fixpoint video_list (cpos : Z) (l : list vblock) (st : list bool * list Z) : res (list msg * (list bool * list Z)) :=
  match l with
  | [] => Ok ([], st)
  | b :: l => do r <- video_block td prof tracks cpos b st; do r' <- video_list cpos l (snd r); Ok (fst r ++ fst r', snd r')
  end.
Lemma video_items_list cpos items : forall st, video_items td prof tracks cpos items st = video_list cpos (flat_map (fun it => match item_block it with Some b => [b] | None => [] end) items) st.
Proof.
  clear. induction items as [|it items IH]; intros st; cbn [video_items flat_map]; [reflexivity|]. destruct (item_block it) as [b|]; cbn [app video_list]; [|apply IH].
  destruct (video_block td prof tracks cpos b st) as [| | |r]; cbn [bind]; try reflexivity. rewrite IH. reflexivity.
Qed.
Definition at_ (st : list bool * list Z) (n : Z) : bool * Z := (nth (Z.to_nat n) (fst st) false, nth (Z.to_nat n) (snd st) 0).
Lemma video_list_ok cpos l : forall st, Forall low_track l -> zlen (fst st) = count -> zlen (snd st) = count -> exists ms st',
  video_list cpos l st = Ok (ms, st') /\ zlen (fst st') = count /\ zlen (snd st') = count /\
  (forall m, In m ms <-> m = Lost 0xC3 /\ exists b, In b l /\ count < vb_track b) /\
  (forall n, 0 <= n < count -> n < 2 ^ 15 -> video_num tracks n -> at_ st' n = fold_left (one cpos) (of_track n l) (at_ st n)) /\
  (forall n, 0 <= n < count -> ~ (n < 2 ^ 15 /\ video_num tracks n) -> at_ st' n = at_ st n).
Proof.
  induction l as [|b l IH]; intros st HL H1 H2; cbn [video_list].
  - exists [], st. split; [reflexivity|]. split; [exact H1|]. split; [exact H2|]. split; [intros m; split; [intros []|intros (_ & b & [] & _)]|]. split; reflexivity.
  - apply Forall_cons_iff in HL. destruct HL as [L1 L2]. unfold low_track in L1.
    assert (HB : exists mb st1, video_block td prof tracks cpos b st = Ok (mb, st1) /\ zlen (fst st1) = count /\ zlen (snd st1) = count /\
      (forall m, In m mb <-> m = Lost 0xC3 /\ count < vb_track b) /\
      (forall n, 0 <= n < count -> vb_track b <> n -> at_ st1 n = at_ st n) /\
      (video_num tracks (vb_track b) -> at_ st1 (vb_track b) = one cpos (at_ st (vb_track b)) b) /\ (~ video_num tracks (vb_track b) -> at_ st1 = at_ st)).
    { destruct st as [kf fp]. cbn [fst snd] in H1, H2. unfold video_block. rewrite H1. destruct (Z.ltb_spec count (vb_track b)) as [Q|Q].
      - exists [Lost 0xC3], (kf, fp). split; [reflexivity|]. split; [exact H1|]. split; [exact H2|]. split; [intros m; cbn [In]; split; [intros [<-|[]]; auto|intros [-> _]; left; reflexivity]|].
        split; [reflexivity|]. split; [|reflexivity]. intros (t & (a & c & E & Ht & _) & _). exfalso. assert (vb_track b < count); [|lia]. apply (HM t); [rewrite E; apply in_elt|exact Ht|exact L1].
      - destruct (track_video_ok td prof tracks (vb_track b) HT L1) as (v & Ev & Hv). rewrite Ev. cbn [bind]. destruct v.
        + assert (V : video_num tracks (vb_track b)) by (apply Hv; reflexivity). assert (Hlt : vb_track b < count).
          { destruct V as (t & (a & c & E & Ht & _) & _). apply (HM t); [rewrite E; apply in_elt|exact Ht|exact L1]. }
          replace (count <=? vb_track b) with false by lia. set (i := Z.to_nat (vb_track b)). assert (I1 : (i < length kf)%nat) by (unfold i, zlen in *; lia). assert (I2 : (i < length fp)%nat) by (unfold i, zlen in *; lia).
          set (kf1 := if negb (nth i kf false) && vb_key b then put i true kf else kf). set (fp1 := if negb (nth i kf1 false) && (nth i fp 0 =? 0) then put i cpos fp else fp).
          assert (K1 : nth i kf1 false = nth i kf false || vb_key b).
          { unfold kf1. destruct (nth i kf false) eqn:E1, (vb_key b) eqn:E2; cbn [negb andb orb]; try exact E1. rewrite put_nth by exact I1. rewrite Nat.eqb_refl. reflexivity. }
          assert (K2 : forall m, m <> i -> nth m kf1 false = nth m kf false).
          { intros m Hm. unfold kf1. destruct (negb (nth i kf false) && vb_key b); [|reflexivity]. rewrite put_nth by exact I1. apply Nat.eqb_neq in Hm. rewrite Hm. reflexivity. }
          assert (K3 : nth i fp1 0 = if negb (nth i kf1 false) && (nth i fp 0 =? 0) then cpos else nth i fp 0).
          { unfold fp1. destruct (negb (nth i kf1 false) && (nth i fp 0 =? 0)); [|reflexivity]. rewrite put_nth by exact I2. rewrite Nat.eqb_refl. reflexivity. }
          assert (K4 : forall m, m <> i -> nth m fp1 0 = nth m fp 0).
          { intros m Hm. unfold fp1. destruct (negb (nth i kf1 false) && (nth i fp 0 =? 0)); [|reflexivity]. rewrite put_nth by exact I2. apply Nat.eqb_neq in Hm. rewrite Hm. reflexivity. }
          exists [], (kf1, fp1). split; [reflexivity|]. cbn [fst snd]. split; [unfold kf1; destruct (negb (nth i kf false) && vb_key b); [unfold zlen; rewrite put_len|]; exact H1|]. split; [unfold fp1; destruct (negb (nth i kf1 false) && (nth i fp 0 =? 0)); [unfold zlen; rewrite put_len|]; exact H2|].
          split; [intros m; split; [intros []|lia]|]. split; [|split; [|contradiction]].
          * intros n Hn E. unfold at_. cbn [fst snd]. rewrite K2, K4 by (unfold i; lia). reflexivity.
          * intros _. unfold at_, one. cbn [fst snd]. fold i. rewrite K3, K1. reflexivity.
        + exists [], (kf, fp). split; [reflexivity|]. split; [exact H1|]. split; [exact H2|]. split; [intros m; split; [intros []|lia]|]. split; [reflexivity|].
          split; [|reflexivity]. intros V. apply Hv in V. discriminate. }
    destruct HB as (mb & st1 & -> & B1 & B2 & B3 & B4 & B5 & B6). cbn [bind fst snd]. destruct (IH st1 L2 B1 B2) as (ms & st2 & -> & I1 & I2 & I3 & I4 & I5). cbn [bind fst snd].
    exists (mb ++ ms), st2. split; [reflexivity|]. split; [exact I1|]. split; [exact I2|]. split; [|split].
    + intros m. rewrite in_app_iff, B3, I3. split.
      * intros [[-> H]|(-> & b' & H & H')]; (split; [reflexivity|]); [exists b|exists b']; (split; [|assumption]); [left; reflexivity|right; exact H].
      * intros (-> & b' & [<-|H] & H'); [left; auto|right; eauto].
    + intros n Hn Hn' Hv. rewrite I4 by assumption. unfold of_track. cbn [filter]. specialize (B4 n Hn). destruct (Z.eqb_spec (vb_track b) n) as [E|E]; [|rewrite (B4 E); reflexivity]. cbn [fold_left]. rewrite <- E in *. rewrite B5 by exact Hv. reflexivity.
    + intros n Hn Hv. rewrite I5 by assumption. specialize (B4 n Hn). destruct (Z.eq_dec (vb_track b) n) as [E|E]; [|exact (B4 E)]. rewrite B6; [reflexivity|]. intros V. apply Hv. split; [lia|]. rewrite <- E. exact V.
Qed.
Lemma start_warnings_ok kf fp : zlen kf = count -> count < 2 ^ 16 -> forall fuel n, 0 <= n <= count -> (Z.to_nat (count - n) <= fuel)%nat -> exists r, start_warnings fuel n kf fp = Ok r /\
  forall m, In m r <-> m = Warn 0xC0 /\ exists k, n <= k < count /\ nth (Z.to_nat k) kf false = true /\ nth (Z.to_nat k) fp 0 <> 0.
Proof.
  clear HM HT HC. intros Hk Hc. induction fuel as [|fuel IH]; intros n Hn Hf; cbn [start_warnings]; rewrite Hk; destruct (Z.ltb_spec n count) as [Q|Q].
  - lia.
  - exists []. split; [reflexivity|]. intros m. split; [intros []|]. intros (_ & k & H & _). lia.
  - rewrite Z.mod_small by lia. destruct (IH (n + 1) ltac:(lia) ltac:(lia)) as (r & -> & Hr). cbn [bind]. eexists. split; [reflexivity|]. intros m. rewrite in_app_iff, Hr. unfold when. split.
    + intros [H|(-> & k & H1 & H2)].
      * destruct (nth (Z.to_nat n) kf false) eqn:E1; [|destruct H]. destruct (nth (Z.to_nat n) fp 0 =? 0) eqn:E2; cbn [negb andb] in H; [destruct H|]. destruct H as [<-|[]]. split; [reflexivity|]. exists n. split; [lia|]. split; [exact E1|lia].
      * split; [reflexivity|]. exists k. split; [lia|exact H2].
    + intros (-> & k & H1 & H2 & H3). destruct (Z.eq_dec k n) as [->|N]; [left|right; split; [reflexivity|]; exists k; split; [lia|auto]]. rewrite H2. replace (nth (Z.to_nat n) fp 0 =? 0) with false by lia. left. reflexivity.
  - exists []. split; [reflexivity|]. intros m. split; [intros []|]. intros (_ & k & H & _). lia.
Qed.
Lemma seen_ok c : seen c (cluster_blocks c).
Proof.
  clear. unfold seen, cluster_blocks. induction (vc_items c) as [|it l IH]; [reflexivity|]. cbn [flat_map]. rewrite <- IH. f_equal. destruct it as [g|b|]; try reflexivity. cbn [item_block].
  induction g as [|[b|] g IHg]; [reflexivity| |]; cbn [first_block flat_map app]; [reflexivity|]. exact IHg.
Qed.
(** The times of the clusters. *)
Lemma video_start_ok fuel : count < 2 ^ 16 -> (Z.to_nat count <= fuel)%nat -> forall l prev, Forall (fun c => Forall low_track (cluster_blocks c)) l -> exists r, check_video_start td fuel prof tracks count prev l = Ok r /\
  forall m, In m r <->
    (m = Err 0xC1 /\ exists c, In c l /\ ctime c = INVALID_TIMESTAMP) \/
    (m = Warn 0xC2 /\ ((exists c b, l = c :: b /\ ctime c <> INVALID_TIMESTAMP /\ prev <> INVALID_TIMESTAMP /\ ctime c <= prev) \/
                       (exists a p c b, l = a ++ p :: c :: b /\ ctime c <> INVALID_TIMESTAMP /\ ctime p <> INVALID_TIMESTAMP /\ ctime c <= ctime p))) \/
    (m = Lost 0xC3 /\ exists c b, In c l /\ In b (cluster_blocks c) /\ count < vb_track b) \/
    (m = Warn 0xC0 /\ exists c n, In c l /\ pos (vc_elt c) <> 0 /\ 0 <= n < count /\ n < 2 ^ 15 /\ video_num tracks n /\ late_key (cluster_blocks c) n).
Proof.
  intros Hc Hf. induction l as [|c l IH]; intros prev HL; cbn [check_video_start].
  - exists []. split; [reflexivity|]. intros m. split; [intros []|]. intros [(_ & ? & [] & _)|[(_ & [(? & ? & [=] & _)|(a & ? & ? & ? & E & _)])|[(_ & ? & ? & [] & _)|(_ & ? & ? & [] & _)]]]. destruct a; discriminate.
  - apply Forall_cons_iff in HL. destruct HL as [L1 L2]. fold (ctime c). destruct (IH (ctime c) L2) as (r & Hr & Ir). clear IH.
    set (m1 := if ctime c =? INVALID_TIMESTAMP then [Err 0xC1] else when (negb (prev =? INVALID_TIMESTAMP) && (ctime c <=? prev)) (Warn 0xC2)).
    assert (E1 : forall m, In m m1 <-> (m = Err 0xC1 /\ ctime c = INVALID_TIMESTAMP) \/ (m = Warn 0xC2 /\ ctime c <> INVALID_TIMESTAMP /\ prev <> INVALID_TIMESTAMP /\ ctime c <= prev)).
    { intros m. unfold m1. destruct (Z.eqb_spec (ctime c) INVALID_TIMESTAMP) as [Q|Q]; cbn [In].
      - split; [intros [<-|[]]; left; auto|]. intros [[-> _]|(_ & H & _)]; [left; reflexivity|contradiction].
      - unfold when. destruct (Z.eqb_spec prev INVALID_TIMESTAMP) as [P|P]; cbn [negb andb]; [|destruct (Z.leb_spec (ctime c) prev) as [R|R]]; cbn [In]; (split; [intros H|intros [[-> H]|(-> & _ & H & H')]]); try tauto; try contradiction; try lia; try (left; reflexivity).
        destruct H as [<-|[]]. right. auto. }
    rewrite video_items_list. fold (cluster_blocks c). set (n := Z.to_nat count). assert (Z1 : zlen (repeat false n) = count) by (unfold zlen; rewrite repeat_length; lia). assert (Z2 : zlen (repeat 0 n) = count) by (unfold zlen; rewrite repeat_length; lia).
    destruct (video_list_ok (pos (vc_elt c)) (cluster_blocks c) (repeat false n, repeat 0 n) L1 Z1 Z2) as (ms & st & -> & S1 & S2 & S3 & S4 & S5). cbn [bind fst snd].
    destruct (start_warnings_ok (fst st) (snd st) S1 Hc fuel 0 ltac:(lia) ltac:(lia)) as (w & -> & Hw). cbn [bind]. rewrite Hr. cbn [bind]. eexists. split; [reflexivity|].
    assert (N0 : forall k, at_ (repeat false n, repeat 0 n) k = (false, 0)).
    { intros k. unfold at_. cbn [fst snd]. f_equal; [destruct (nth_in_or_default (Z.to_nat k) (repeat false n) false) as [H|H]|destruct (nth_in_or_default (Z.to_nat k) (repeat 0 n) 0) as [H|H]]; try exact H; apply repeat_spec in H; exact H. }
    assert (E3 : forall m, In m w <-> m = Warn 0xC0 /\ exists k, pos (vc_elt c) <> 0 /\ 0 <= k < count /\ k < 2 ^ 15 /\ video_num tracks k /\ late_key (cluster_blocks c) k).
    { intros m. rewrite Hw. split.
      - intros (-> & k & Hk & H1 & H2). split; [reflexivity|]. assert (D : (k < 2 ^ 15 /\ video_num tracks k) \/ ~ (k < 2 ^ 15 /\ video_num tracks k)).
        { destruct (Z.lt_ge_cases k (2 ^ 15)) as [Q|Q]; [|right; lia]. destruct (track_video_ok td prof tracks k HT ltac:(lia)) as ([|] & _ & V); [left; split; [exact Q|apply V; reflexivity]|right; intros [_ X]; apply V in X; discriminate]. }
        destruct D as [[D1 D2]|D].
        + pose proof (S4 k Hk D1 D2) as E. rewrite N0 in E. unfold at_ in E. assert (Q1 : fst (fold_left (one (pos (vc_elt c))) (of_track k (cluster_blocks c)) (false, 0)) = true) by (rewrite <- E; exact H1).
          assert (Q2 : snd (fold_left (one (pos (vc_elt c))) (of_track k (cluster_blocks c)) (false, 0)) <> 0) by (rewrite <- E; exact H2). rewrite one_ok in Q1. cbn [fst orb] in Q1. apply one_start in Q2. destruct Q2 as [P Q2]. exists k. split; [exact P|]. split; [exact Hk|]. split; [exact D1|]. split; [exact D2|]. apply late_of. auto.
        + pose proof (S5 k Hk D) as E. rewrite N0 in E. unfold at_ in E. injection E as E _. congruence.
      - intros (-> & k & P & Hk & D1 & D2 & HL). split; [reflexivity|]. exists k. split; [exact Hk|]. pose proof (S4 k Hk D1 D2) as E. rewrite N0 in E. unfold at_ in E. apply late_of in HL. destruct HL as [A B]. split.
        + change (fst (nth (Z.to_nat k) (fst st) false, nth (Z.to_nat k) (snd st) 0) = true). rewrite E, one_ok, B. reflexivity.
        + change (snd (nth (Z.to_nat k) (fst st) false, nth (Z.to_nat k) (snd st) 0) <> 0). rewrite E. apply one_start. auto. }
    intros m. rewrite !in_app_iff, E1, S3, E3, Ir. clear - HC. split.
    + intros [[(-> & H)|(-> & H)]|[(-> & b & H & H')|[(-> & k & H)|[(-> & c' & H & H')|[(-> & [(c' & b & -> & H)|(a & p & c' & b & -> & H)])|[(-> & c' & b & H & H')|(-> & c' & k & H & H')]]]]]].
      * left. split; [reflexivity|]. exists c. split; [left; reflexivity|exact H].
      * right; left. split; [reflexivity|]. left. exists c, l. auto.
      * right; right; left. split; [reflexivity|]. exists c, b. split; [left; reflexivity|auto].
      * right; right; right. split; [reflexivity|]. exists c, k. split; [left; reflexivity|exact H].
      * left. split; [reflexivity|]. exists c'. split; [right; exact H|exact H'].
      * right; left. split; [reflexivity|]. right. exists [], c, c', b. auto.
      * right; left. split; [reflexivity|]. right. exists (c :: a), p, c', b. auto.
      * right; right; left. split; [reflexivity|]. exists c', b. split; [right; exact H|exact H'].
      * right; right; right. split; [reflexivity|]. exists c', k. split; [right; exact H|exact H'].
    + intros [(-> & c' & [<-|H] & H')|[(-> & [(c' & b & [= <- <-] & H)|(a & p & c' & b & E & H)])|[(-> & c' & b & [<-|H] & H')|(-> & c' & k & [<-|H] & H')]]].
      * left. left. auto.
      * do 3 right. left. eauto.
      * left. right. auto.
      * do 3 right. right. left. split; [reflexivity|]. destruct a as [|x a]; injection E as -> E; [left; exists c', b; tauto|right; exists a, p, c', b; auto].
      * right. left. split; [reflexivity|]. eauto.
      * do 3 right. right. right. left. eauto.
      * right. right. left. split; [reflexivity|]. eauto.
      * do 3 right. right. right. right. split; [reflexivity|]. eauto.
Qed.
End V.
