(** Nothing is lost and nothing is written twice. *)
From Verif Require Import Base BaseProofs Tree Stream Frame BlockTime Arr Remux RemuxSpec.

(** Pieces of [b] from frame [n] to frame [m]. *)
Inductive pt (b : binfo) (m : nat) : nat -> list item -> Prop :=
| pt_end : pt b m m []
| pt_next n i l : i_blk i = b -> i_from i = n -> i_frames i <> [] ->
    i_frames i = firstn (length (i_frames i)) (skipn n (k_frames (bi_blk b))) ->
    pt b m (n + length (i_frames i)) l -> pt b m n (i :: l).

Lemma pt_app b m n k l : pt b k n l -> forall l', pt b m k l' -> pt b m n (l ++ l').
Proof. induction 1; intros l' H'; [exact H'|]. cbn [app]. apply pt_next; auto. Qed.
Lemma pt_le b m n l : pt b m n l -> (n <= m)%nat.
Proof. induction 1; lia. Qed.
Lemma pt_nil b n l : pt b n n l -> l = [].
Proof.
  intros H. inversion H as [|? i l' H1 H2 H3 H4 H5]; [reflexivity|].
  apply pt_le in H5. destruct (i_frames i); [contradiction|cbn [length] in H5; lia].
Qed.
Lemma pt_pieces b n l : pt b (length (k_frames (bi_blk b))) n l -> pieces (bi_blk b) n l.
Proof. induction 1; [apply pieces_end; reflexivity|apply pieces_next; auto]. subst b. reflexivity. Qed.
Lemma pt_blk b m n l : pt b m n l -> Forall (fun i => i_blk i = b) l.
Proof. induction 1; constructor; auto. Qed.

Lemma tiles_app l o : tiles l o -> forall l' o', tiles l' o' -> tiles (l ++ l') (o ++ o').
Proof.
  induction 1; intros l' o' H'; [exact H'| |].
  - cbn [app]. apply tiles_whole; auto.
  - cbn [app]. rewrite <- app_assoc. apply tiles_cut; auto.
Qed.
Lemma pieces_frames b n p : pieces b n p -> (n <= length (k_frames b))%nat -> concat (map i_frames p) = skipn n (k_frames b).
Proof.
  induction 1 as [n H|n i l H1 H2 H3 H4 H5 IH]; intros Hn.
  - subst n. rewrite skipn_all. reflexivity.
  - cbn [map concat].
    assert (Hl : (length (i_frames i) <= length (skipn n (k_frames b)))%nat).
    { rewrite H4 at 1. rewrite firstn_length. lia. }
    rewrite skipn_length in Hl.
    rewrite IH by lia. rewrite H4 at 1.
    rewrite <- (firstn_skipn (length (i_frames i)) (skipn n (k_frames b))) at 2. f_equal.
    clear. revert n. generalize (length (i_frames i)) as k. generalize (k_frames b) as l.
    induction l as [|x l IH]; intros k n; [rewrite !skipn_nil; reflexivity|].
    destruct n; [reflexivity|]. cbn [Nat.add skipn]. apply IH.
Qed.
Lemma tiles_frames l o : tiles l o -> concat (map i_frames o) = concat (map k_frames l).
Proof.
  induction 1 as [|b l i o H1 H2 H3 H4 IH|b l p o H1 H2 H3 IH]; [reflexivity| |].
  - cbn [map concat]. rewrite H3, IH. reflexivity.
  - rewrite map_app, concat_app, IH. cbn [map concat]. f_equal. apply pieces_frames in H2; [exact H2|lia].
Qed.

(** What has been written of the blocks [l0] of a track, when [l] and the frame [st] of its first are next. *)
Definition good (l0 l : list binfo) (st : nat) (o : list item) : Prop :=
  exists don o1 p, l0 = don ++ l /\ o = o1 ++ p /\ tiles (map bi_blk don) o1 /\ Forall (fun i => i_whole i = false) p /\
    match l with [] => p = [] /\ st = O | b :: _ => pt b st O p /\ (st < length (k_frames (bi_blk b)))%nat end.

Lemma frames_until_spec dur limit b l : forall i, let j := frames_until dur limit b i l in
  (i <= j <= i + length l)%nat /\ (forall k, (i <= k < j)%nat -> dur = true -> frame_end b k < limit) /\
  ((j < i + length l)%nat -> dur = true /\ limit <= frame_end b j).
Proof.
  induction l as [|x l IH]; intros i; cbn zeta; cbn [frames_until length].
  - split; [lia|]. split; intros; exfalso; lia.
  - destruct (dur && (limit <=? frame_end b i)) eqn:E.
    + split; [lia|]. split; [intros; lia|]. intros _. apply andb_true_iff in E. destruct E. split; [assumption|lia].
    + specialize (IH (S i)). cbv zeta in IH. destruct IH as (H1 & H2 & H3). split; [lia|]. split.
      * intros k Hk Hd. destruct (Nat.eq_dec k i) as [->|]; [rewrite Hd in E; cbn [andb] in E; lia|]. apply H2; [lia|exact Hd].
      * intros Hj. apply H3. lia.
Qed.
Section P.
Context (w : option Z).
Lemma take_frames_spec dur limit tst b start r : take_frames w dur limit tst b start = Ok r ->
  (start <= length (k_frames (bi_blk b)))%nat ->
  (start <= fst r <= length (k_frames (bi_blk b)))%nat /\ pt b (fst r) start (snd r) /\
  Forall (fun i => i_whole i = false) (snd r) /\
  (forall k, (start <= k < fst r)%nat -> dur = true -> frame_end (bi_blk b) k < limit) /\
  ((fst r < length (k_frames (bi_blk b)))%nat -> dur = true /\ limit <= frame_end (bi_blk b) (fst r)).
Proof.
  intros H Hs. unfold take_frames in H. cbv zeta in H.
  pose proof (frames_until_spec dur limit (bi_blk b) (skipn start (k_frames (bi_blk b))) start) as F. cbv zeta in F.
  set (i := frames_until dur limit (bi_blk b) start (skipn start (k_frames (bi_blk b)))) in *.
  rewrite skipn_length in F. destruct F as (F1 & F2 & F3).
  set (fs := firstn (i - start) (skipn start (k_frames (bi_blk b)))) in *.
  assert (Hl : length fs = (i - start)%nat) by (unfold fs; rewrite firstn_length, skipn_length; lia).
  assert (R : fst r = i /\ pt b i start (snd r) /\ Forall (fun i => i_whole i = false) (snd r)).
  { destruct fs as [|x fs'] eqn:Efs.
    - injection H as <-. cbn [fst snd]. cbn [length] in Hl. replace start with i by lia. split; [reflexivity|]. split; [apply pt_end|constructor].
    - destruct (zlen (concat (k_frames (bi_blk b))) =? 0); [discriminate|].
      match type of H with bind ?q _ = _ => destruct q as [| | |q'] end; try discriminate. cbn [bind] in H. injection H as <-. cbn [fst snd].
      split; [reflexivity|]. rewrite <- Efs in *. split; [|constructor; [reflexivity|constructor]].
      apply pt_next; cbn [i_blk i_from i_frames]; try reflexivity.
      + rewrite Efs; discriminate.
      + rewrite Hl. reflexivity.
      + replace (start + length fs)%nat with i by lia. apply pt_end. }
  destruct R as (R1 & R2 & R3). rewrite R1. split; [lia|]. split; [exact R2|]. split; [exact R3|]. split; [exact F2|]. intros; apply F3; lia.
Qed.

Lemma good_cut l0 b l st o i p : good l0 (b :: l) st o -> pt b i st p -> Forall (fun i => i_whole i = false) p ->
  (i < length (k_frames (bi_blk b)))%nat -> good l0 (b :: l) i (o ++ p).
Proof.
  intros (don & o1 & q & H1 & H2 & H3 & H4 & H5 & H6) Hp Hw Hi. exists don, o1, (q ++ p).
  split; [exact H1|]. split; [rewrite H2, app_assoc; reflexivity|]. split; [exact H3|]. split; [apply Forall_app; auto|].
  split; [|exact Hi]. apply pt_app with st; assumption.
Qed.
Definition frames_ne (b : binfo) : Prop := k_frames (bi_blk b) <> [].
Lemma good_start l0 l o don : l0 = don ++ l -> tiles (map bi_blk don) o -> Forall frames_ne l -> good l0 l O o.
Proof.
  intros H1 H2 H3. exists don, o, []. split; [exact H1|]. split; [rewrite app_nil_r; reflexivity|]. split; [exact H2|].
  split; [constructor|]. destruct l as [|b l]; [auto|]. split; [apply pt_end|].
  apply Forall_cons_iff in H3. destruct H3 as [H3 _]. unfold frames_ne in H3. destruct (k_frames (bi_blk b)); [contradiction|cbn [length]; lia].
Qed.
Lemma good_done l0 b l st o p : good l0 (b :: l) st o -> pt b (length (k_frames (bi_blk b))) st p ->
  Forall (fun i => i_whole i = false) p -> Forall frames_ne l -> good l0 l O (o ++ p).
Proof.
  intros (don & o1 & q & H1 & H2 & H3 & H4 & H5 & H6) Hp Hw Hn.
  apply good_start with (don ++ [b]); [rewrite <- app_assoc; exact H1| |exact Hn].
  rewrite map_app, H2, <- app_assoc. apply tiles_app; [exact H3|].
  cbn [map]. rewrite <- (app_nil_r (q ++ p)). apply tiles_cut; [apply Forall_app; auto| |apply tiles_nil].
  apply pt_pieces. apply pt_app with st; assumption.
Qed.
Lemma good_whole l0 b l o i : good l0 (b :: l) O o -> i_whole i = true -> i_blk i = b -> i_frames i = k_frames (bi_blk b) ->
  Forall frames_ne l -> good l0 l O (o ++ [i]).
Proof.
  intros (don & o1 & q & H1 & H2 & H3 & H4 & H5 & H6) Hw Hb Hf Hn. apply pt_nil in H5. subst q. rewrite app_nil_r in H2. subst o1.
  apply good_start with (don ++ [b]); [rewrite <- app_assoc; exact H1| |exact Hn].
  rewrite map_app. apply tiles_app; [exact H3|]. cbn [map]. apply tiles_whole; [exact Hw|rewrite Hb; reflexivity|exact Hf|apply tiles_nil].
Qed.

Definition bi_ok (b : binfo) : Prop := block_ok (bi_blk b) /\ - 2 ^ 58 <= bi_dec b < 2 ^ 59.
Lemma bi_dec_lt b : bi_ok b -> bi_dec b < INVALID_TIMESTAMP.
Proof. intros [_ H]. unfold INVALID_TIMESTAMP. lia. Qed.
Lemma bi_ok_ne l : Forall bi_ok l -> Forall frames_ne l.
Proof. apply Forall_impl. intros b [[H _] _]. exact H. Qed.

Lemma sum_nonneg d : Forall (fun x => 0 <= x < INVALID_TIMESTAMP) d -> 0 <= sum d.
Proof. induction 1 as [|x d Hx Hd IH]; unfold sum in *; cbn [fold_right]; lia. Qed.
Lemma sum_durs_le d : Forall (fun x => 0 <= x < INVALID_TIMESTAMP) d -> forall n acc,
  sum_durs n d acc = acc + sum (firstn n d) /\ sum (firstn n d) <= sum d.
Proof.
  induction 1 as [|x d Hx Hd IH]; intros n acc.
  - destruct n; cbn [sum_durs firstn sum fold_right]; lia.
  - pose proof (sum_nonneg d Hd) as S0.
    destruct n; cbn [sum_durs firstn].
    + change (sum []) with 0. change (sum (x :: d)) with (x + sum d). lia.
    + change (sum (x :: d)) with (x + sum d) in *. change (sum (x :: firstn n d)) with (x + sum (firstn n d)).
      replace (x =? INVALID_TIMESTAMP) with false by lia. destruct (IH n (acc + x)) as [-> ?]. lia.
Qed.
Lemma sum_nth d : Forall (fun x => 0 <= x < INVALID_TIMESTAMP) d -> forall n v, (n < length d)%nat -> sum (firstn n d) + nth n d v <= sum d.
Proof.
  induction 1 as [|x d Hx Hd IH]; intros n v Hn; [cbn [length] in Hn; lia|].
  pose proof (sum_nonneg d Hd) as S0. change (sum (x :: d)) with (x + sum d).
  destruct n; cbn [firstn nth].
  - change (sum []) with 0. lia.
  - change (sum (x :: firstn n d)) with (x + sum (firstn n d)). cbn [length] in Hn. specialize (IH n v ltac:(lia)). lia.
Qed.
(** With known durations the frames begin and end at the sums. *)
Lemma frame_times b i : block_ok b -> k_durs b <> [] -> (i < length (k_frames b))%nat ->
  frame_start b i = k_time b + sum (firstn i (k_durs b)) /\ frame_end b i = frame_start b i + nth i (k_durs b) INVALID_TIMESTAMP /\
  - 2 ^ 58 <= frame_start b i < 2 ^ 59 /\ frame_end b i < INVALID_TIMESTAMP.
Proof.
  intros (_ & _ & Ht & [D|(D1 & D2 & D3)]) Hd Hi; [contradiction|].
  destruct (sum_durs_le _ D2 i (k_time b)) as [S1 S2]. pose proof (sum_nth _ D2 i INVALID_TIMESTAMP ltac:(lia)) as S3.
  assert (S : frame_start b i = k_time b + sum (firstn i (k_durs b))).
  { unfold frame_start. replace (zlen (k_durs b) <=? Z.of_nat i) with false by (unfold zlen; lia).
    assert (k_time b < INVALID_TIMESTAMP) by (unfold INVALID_TIMESTAMP; lia).
    replace (k_time b =? INVALID_TIMESTAMP) with false by lia. exact S1. }
  split; [exact S|]. unfold frame_end, frame_dur. rewrite S.
  assert (Hlt : k_time b + sum (k_durs b) < INVALID_TIMESTAMP) by (unfold INVALID_TIMESTAMP; lia).
  assert (0 <= sum (firstn i (k_durs b))) by (apply sum_nonneg; rewrite Forall_forall in D2 |- *; intros x Hx; apply D2; rewrite <- (firstn_skipn i); apply in_or_app; left; exact Hx).
  replace (k_time b + sum (firstn i (k_durs b)) =? INVALID_TIMESTAMP) with false by lia.
  assert (N : nth i (k_durs b) INVALID_TIMESTAMP < INVALID_TIMESTAMP).
  { rewrite Forall_forall in D2. apply D2. apply nth_In. lia. }
  replace (nth i (k_durs b) INVALID_TIMESTAMP =? INVALID_TIMESTAMP) with false by lia.
  assert (0 <= nth i (k_durs b) INVALID_TIMESTAMP) by (rewrite Forall_forall in D2; apply D2; apply nth_In; lia).
  split; [reflexivity|]. lia.
Qed.
Lemma frame_unknown b i : k_durs b = [] -> frame_end b i = INVALID_TIMESTAMP /\ frame_start b i = INVALID_TIMESTAMP.
Proof.
  intros E. assert (frame_start b i = INVALID_TIMESTAMP).
  { unfold frame_start. rewrite E. replace (zlen (@nil Z) <=? Z.of_nat i) with true by (change (zlen (@nil Z)) with 0; lia). reflexivity. }
  unfold frame_end. rewrite H, Z.eqb_refl. auto.
Qed.

(** One track during a round.  A cut block has durations; a started block is finished when there is no limit. *)
Definition started_ok (l : list binfo) (st : nat) : Prop := match l with [] => True | b :: _ => st = O \/ k_durs (bi_blk b) <> [] end.
Lemma other_loop_spec mainend masterend tst l0 : masterend <= INVALID_TIMESTAMP -> forall l start l' st' o, Forall bi_ok l ->
  other_loop w mainend masterend tst start l = Ok (Some (l', st', o)) ->
  forall o0, good l0 l start o0 -> started_ok l start ->
  good l0 l' st' (o0 ++ o) /\ started_ok l' st' /\ Forall bi_ok l' /\
  (mainend = INVALID_TIMESTAMP -> masterend = INVALID_TIMESTAMP -> l' = []) /\
  Forall (fun i => bi_dec (i_blk i) <= mainend) o.
Proof.
  intros Hm l. induction l as [|b l IH]; intros start l' st' o Hok H o0 Hg Hst; cbn [other_loop] in H.
  - injection H as <- <- <-. rewrite app_nil_r. destruct Hg as (don & o1 & p & H1 & H2 & H3 & H4 & -> & ->).
    split; [exists don, o1, []; split; [exact H1|]; split; [exact H2|]; auto|]. split; [exact I|]. auto.
  - pose proof Hok as Hok0. apply Forall_cons_iff in Hok. destruct Hok as [Hb Hok]. cbv zeta in H.
    destruct (mainend <? bi_dec b) eqn:E1.
    { injection H as <- <- <-. rewrite app_nil_r. split; [exact Hg|]. split; [exact Hst|]. split; [exact Hok0|].
      split; [|constructor]. intros -> _. apply bi_dec_lt in Hb. lia. }
    assert (Hlt : (start < length (k_frames (bi_blk b)))%nat) by (destruct Hg as (? & ? & ? & ? & ? & ? & ? & ? & ?); assumption).
    assert (GO : forall pre, good l0 l O (o0 ++ pre) -> Forall (fun i => bi_dec (i_blk i) <= mainend) pre ->
       (do r <- other_loop w mainend masterend tst 0 l; Ok (match r with None => None | Some (l, s, o) => Some (l, s, pre ++ o) end)) = Ok (Some (l', st', o)) ->
       good l0 l' st' (o0 ++ o) /\ started_ok l' st' /\ Forall bi_ok l' /\
       (mainend = INVALID_TIMESTAMP -> masterend = INVALID_TIMESTAMP -> l' = []) /\ Forall (fun i => bi_dec (i_blk i) <= mainend) o).
    { clear H. intros pre Hpre Fpre Q. destruct (other_loop w mainend masterend tst 0 l) as [| | |r] eqn:Er; try discriminate. cbn [bind] in Q.
      destruct r as [[[l1 s1] o1]|]; [|discriminate]. injection Q as <- <- <-.
      destruct (IH O l1 s1 o1 Hok Er (o0 ++ pre) Hpre) as (A1 & A2 & A3 & A4 & A5); [destruct l; [exact I|left; reflexivity]|].
      rewrite app_assoc. split; [exact A1|]. split; [exact A2|]. split; [exact A3|]. split; [exact A4|]. apply Forall_app; auto. }
    assert (DEC : forall i p, pt b i start p -> Forall (fun i => bi_dec (i_blk i) <= mainend) p).
    { intros i p Hp. apply pt_blk in Hp. revert Hp. apply Forall_impl. intros x ->. lia. }
    destruct start as [|start'].
    + destruct (negb (mainend =? INVALID_TIMESTAMP) && (masterend <? _) && k_laced (bi_blk b) && k_read (bi_blk b)) eqn:E2.
      * destruct (take_frames w (k_durok (bi_blk b)) masterend tst b 0) as [| | |r] eqn:Et; try discriminate. cbn [bind] in H.
        pose proof (take_frames_spec _ _ _ _ _ _ Et ltac:(lia)) as (T1 & T2 & T3 & T4 & T5).
        destruct (Nat.eqb (fst r) (length (k_frames (bi_blk b)))) eqn:En.
        -- injection H as <- <- <-. rewrite app_nil_r. split; [exact Hg|]. split; [exact Hst|]. split; [exact Hok0|]. split; [intros; lia|constructor].
        -- apply Nat.eqb_neq in En. injection H as <- <- <-.
           split; [apply good_cut with O; auto; lia|]. split.
           { cbn [started_ok]. destruct (k_durs (bi_blk b)) eqn:Ed; [left|right; discriminate].
             destruct (Nat.eq_dec (fst r) 0) as [->|Hn]; [reflexivity|].
             destruct (T5 ltac:(lia)) as [D _]. specialize (T4 O ltac:(lia) D). destruct (frame_unknown (bi_blk b) 0 Ed). lia. }
           split; [exact Hok0|]. split; [intros; lia|].
           apply DEC with (fst r); exact T2.
      * destruct (k_frames (bi_blk b)) eqn:Ef; [discriminate|]. rewrite <- Ef in *.
        destruct (local_of w (k_time (bi_blk b)) tst) as [| | |p]; try discriminate. cbn [bind] in H.
        destruct p as [p|]; [|discriminate]. revert H. apply GO.
        -- apply good_whole with b; try reflexivity; [exact Hg|apply bi_ok_ne; exact Hok].
        -- constructor; [cbn [i_blk]; lia|constructor].
    + destruct (take_frames w true masterend tst b (S start')) as [| | |r] eqn:Et; try discriminate. cbn [bind] in H.
      pose proof (take_frames_spec _ _ _ _ _ _ Et ltac:(lia)) as (T1 & T2 & T3 & T4 & T5).
      destruct Hst as [Hst|Hst]; [lia|].
      destruct (Nat.eqb (fst r) (length (k_frames (bi_blk b)))) eqn:En.
      * apply Nat.eqb_eq in En. revert H. apply GO.
        -- apply good_done with b (S start'); auto; [rewrite <- En; exact T2|apply bi_ok_ne; exact Hok].
        -- apply DEC with (fst r); exact T2.
      * apply Nat.eqb_neq in En. injection H as <- <- <-.
        split; [apply good_cut with (S start'); auto; lia|]. split; [right; exact Hst|]. split; [exact Hok0|]. split.
        { intros _ Em. destruct (T5 ltac:(lia)) as [_ T6]. destruct Hb as [Hb _]. destruct (frame_times _ (fst r) Hb Hst ltac:(lia)) as (_ & _ & _ & ?). lia. }
        apply DEC with (fst r); exact T2.
Qed.
End P.
