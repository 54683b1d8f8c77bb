(** The remux comes to an end; what each piece looks like. *)
From Verif Require Import Base BaseProofs Tree Stream Frame BlockTime Arr ArrSpec ArrProofs ArrProofs2 BlockTimeProofs Remux RemuxSpec RemuxProofs RemuxProofs2 RemuxProofs3.

Lemma sum_S l : forall k v, (k < length l)%nat -> sum (firstn (S k) l) = sum (firstn k l) + nth k l v.
Proof.
  induction l as [|x l IH]; intros k v Hk; cbn [length] in Hk; [lia|].
  destruct k.
  - cbn [firstn nth]. change (sum [x]) with (x + 0). change (sum []) with 0. lia.
  - specialize (IH k v ltac:(lia)). rewrite (firstn_cons (S k)), firstn_cons. cbn [nth].
    change (sum (x :: firstn (S k) l)) with (x + sum (firstn (S k) l)). change (sum (x :: firstn k l)) with (x + sum (firstn k l)). lia.
Qed.
Section P.
Context (w : option Z) (sc : Z) (Hw : seg_scale w = sc) (Hsc : scale_ok sc).
Lemma local_of_val ts cts : big ts -> big cts -> local_of w ts cts = Ok (if in16 (Z.quot (ts - cts) sc) then Some (Z.quot (ts - cts) sc) else None).
Proof.
  intros H1 H2. unfold local_of. rewrite (block_set_ok _ ts cts sc) by (cbn [t_wtrack t_wseg]; auto).
  unfold in16. destruct ((32767 <? Z.quot (ts - cts) sc) || (Z.quot (ts - cts) sc <? -32768)) eqn:E; cbn [bind fst snd].
  - replace ((-32768 <=? Z.quot (ts - cts) sc) && (Z.quot (ts - cts) sc <=? 32767)) with false by lia. reflexivity.
  - replace ((-32768 <=? Z.quot (ts - cts) sc) && (Z.quot (ts - cts) sc <=? 32767)) with true by lia. reflexivity.
Qed.
Definition lim (t : Z) : Prop := - 2 ^ 58 <= t < 2 ^ 59.
Lemma lim_big t : lim t -> big t.
Proof. unfold lim, big. lia. Qed.
Lemma time_lim b : block_ok b -> lim (k_time b).
Proof. intros (_ & _ & H & _). unfold lim. lia. Qed.

Lemma take_total dur masterend tst b start : bi_ok b -> (start <= length (k_frames (bi_blk b)))%nat -> lim tst ->
  exists r, take_frames w dur masterend tst b start = Ok r /\
    (masterend <= INVALID_TIMESTAMP -> dur = true -> Forall (item_ok sc masterend tst) (snd r)).
Proof.
  intros [Hb _] Hs Ht. unfold take_frames. cbv zeta.
  pose proof (frames_until_spec dur masterend (bi_blk b) (skipn start (k_frames (bi_blk b))) start) as F. cbv zeta in F.
  set (i := frames_until dur masterend (bi_blk b) start (skipn start (k_frames (bi_blk b)))) in *.
  rewrite skipn_length in F. destruct F as (F1 & F2 & F3).
  set (fs := firstn (i - start) (skipn start (k_frames (bi_blk b)))) in *.
  assert (Hl : length fs = (i - start)%nat) by (unfold fs; rewrite firstn_length, skipn_length; lia).
  destruct fs as [|f fs'] eqn:Efs; [eexists; split; [reflexivity|constructor]|]. rewrite <- Efs in *.
  assert (Hlen : (start < i)%nat) by (rewrite Efs in Hl; cbn [length] in Hl; lia).
  replace (zlen (concat (k_frames (bi_blk b))) =? 0) with false.
  2:{ destruct Hb as (_ & Hb & _). destruct (concat (k_frames (bi_blk b))); [contradiction|]. rewrite zlen_cons. pose proof (zlen_nonneg l). lia. }
  destruct (k_durs (bi_blk b)) as [|d0 ds] eqn:Ed.
  - destruct (frame_unknown (bi_blk b) start Ed) as [U1 U2]. rewrite U2, Z.eqb_refl. cbn [bind]. eexists. split; [reflexivity|].
    intros Hm Hd. specialize (F2 start ltac:(lia) Hd). lia.
  - assert (Hne : k_durs (bi_blk b) <> []) by (rewrite Ed; discriminate).
    destruct (frame_times _ start Hb Hne ltac:(lia)) as (T1 & _ & T3 & _).
    assert (V : frame_start (bi_blk b) start < INVALID_TIMESTAMP) by (unfold INVALID_TIMESTAMP; lia).
    replace (frame_start (bi_blk b) start =? INVALID_TIMESTAMP) with false by lia.
    rewrite local_of_val by (apply lim_big; assumption). cbn [bind]. eexists. split; [reflexivity|]. intros Hm Hd.
    constructor; [|constructor]. unfold item_ok. cbn [i_whole i_blk i_from i_frames i_local]. rewrite <- T1.
    split; [exact Hne|]. split; [reflexivity|].
    specialize (F2 (i - 1)%nat ltac:(lia) Hd). destruct (frame_times _ (i - 1)%nat Hb Hne ltac:(lia)) as (T4 & T5 & _ & _).
    rewrite Hl. replace (start + (i - start))%nat with (S (i - 1)) by lia.
    rewrite T5, T4 in F2. clear - F2 Hb Hne Hlen F1. set (k := (i - 1)%nat) in *.
    assert (Hk : (k < length (k_durs (bi_blk b)))%nat).
    { destruct Hb as (_ & _ & _ & [D|(D & _)]); [contradiction|]. lia. }
    assert (Es : sum (firstn (S k) (k_durs (bi_blk b))) = sum (firstn k (k_durs (bi_blk b))) + nth k (k_durs (bi_blk b)) INVALID_TIMESTAMP).
    { apply sum_S, Hk. }
    lia.
Qed.

Lemma other_total mainend masterend tst : masterend <= INVALID_TIMESTAMP -> lim tst -> forall l start, Forall bi_ok l ->
  match l with [] => True | b :: _ => (start < length (k_frames (bi_blk b)))%nat end -> started_ok l start ->
  exists r, other_loop w mainend masterend tst start l = Ok r /\
    match r with Some (_, _, o) => Forall (item_ok sc masterend tst) o | None => exists b, In b l /\ in16 (Z.quot (k_time (bi_blk b) - tst) sc) = false end.
Proof.
  intros Hm Ht l. induction l as [|b l IH]; intros start Hok Hlt Hst; cbn [other_loop].
  - eexists. split; [reflexivity|constructor].
  - apply Forall_cons_iff in Hok. destruct Hok as [Hb Hok]. cbv zeta.
    destruct (mainend <? bi_dec b); [eexists; split; [reflexivity|constructor]|].
    assert (N : match l with [] => True | b :: _ => (0 < length (k_frames (bi_blk b)))%nat end).
    { destruct l as [|c l']; [exact I|]. apply Forall_cons_iff in Hok. destruct Hok as [[[Hn _] _] _]. destruct (k_frames (bi_blk c)); [contradiction|cbn [length]; lia]. }
    destruct (IH O Hok N ltac:(destruct l; [exact I|left; reflexivity])) as (r & Er & Fr).
    assert (GO : forall pre, Forall (item_ok sc masterend tst) pre ->
      exists r', (do r <- other_loop w mainend masterend tst 0 l; Ok (match r with None => None | Some (l, s, o) => Some (l, s, pre ++ o) end)) = Ok r' /\
      match r' with Some (_, _, o) => Forall (item_ok sc masterend tst) o | None => exists b', In b' (b :: l) /\ in16 (Z.quot (k_time (bi_blk b') - tst) sc) = false end).
    { intros pre Hp. rewrite Er. cbn [bind]. destruct r as [[[l1 s1] o1]|].
      - eexists. split; [reflexivity|]. apply Forall_app; auto.
      - eexists. split; [reflexivity|]. destruct Fr as (b' & H1 & H2). exists b'. split; [right; exact H1|exact H2]. }
    destruct start as [|start'].
    + destruct (negb (mainend =? INVALID_TIMESTAMP) && (masterend <? _) && k_laced (bi_blk b) && k_read (bi_blk b)).
      * destruct (take_total (k_durok (bi_blk b)) masterend tst b 0 Hb ltac:(lia) Ht) as (r' & E' & F'). rewrite E'. cbn [bind].
        destruct (Nat.eqb (fst r') (length (k_frames (bi_blk b)))) eqn:En; eexists; (split; [reflexivity|]); [constructor|].
        apply F'; [exact Hm|]. apply Nat.eqb_neq in En. destruct (take_frames_spec w _ _ _ _ _ _ E' ltac:(lia)) as (T1 & _ & _ & _ & T5). apply T5. lia.
      * destruct (k_frames (bi_blk b)) as [|f fs] eqn:Ef; [cbn [length] in Hlt; lia|]. rewrite <- Ef.
        rewrite local_of_val by (apply lim_big; first [exact Ht | apply time_lim, Hb]). cbn [bind].
        destruct (in16 (Z.quot (k_time (bi_blk b) - tst) sc)) eqn:E16.
        -- apply GO. constructor; [|constructor]. unfold item_ok. cbn [i_whole i_blk i_from i_frames i_local]. auto.
        -- eexists. split; [reflexivity|]. exists b. split; [left; reflexivity|exact E16].
    + destruct (take_total true masterend tst b (S start') Hb ltac:(lia) Ht) as (r' & E' & F'). rewrite E'. cbn [bind].
      destruct (Nat.eqb (fst r') (length (k_frames (bi_blk b)))).
      * apply GO. apply F'; auto.
      * eexists. split; [reflexivity|]. apply F'; auto.
Qed.

Context (s0 : tracks) (order : list Z) (main : Z) (Hmain : ~ In main order).
Lemma inv_lt s o t : inv s0 s o -> match fst (s t) with [] => True | b :: _ => (snd (s t) < length (k_frames (bi_blk b)))%nat end.
Proof. intros H. destruct (H t) as ((don & o1 & p & _ & _ & _ & _ & G) & _). destruct (fst (s t)); [exact I|apply G]. Qed.
Lemma inv_in s o t b : inv s0 s o -> In b (fst (s t)) -> In b (fst (s0 t)).
Proof. intros H Hin. destruct (H t) as ((don & o1 & p & -> & _) & _). apply in_or_app. right. exact Hin. Qed.

(** Some block of the source that does not fit the cluster at [tst]. *)
Definition too_far (tst : Z) : Prop := exists t b, In t (main :: order) /\ In b (fst (s0 t)) /\ in16 (Z.quot (k_time (bi_blk b) - tst) sc) = false.

Lemma others_total mainend masterend tst : masterend <= INVALID_TIMESTAMP -> lim tst -> forall ord s o0, incl ord order -> inv s0 s o0 ->
  exists r, others_loop w mainend masterend tst ord s = Ok r /\
    match r with Some (_, o) => Forall (fun p => item_ok sc masterend tst (snd p)) o | None => too_far tst end.
Proof.
  intros Hm Ht ord. induction ord as [|t ord IH]; intros s o0 Hin Hi; cbn [others_loop]; [eexists; split; [reflexivity|constructor]|].
  destruct (Hi t) as (G & St & Bok).
  destruct (other_total mainend masterend tst Hm Ht _ _ Bok (inv_lt _ _ t Hi) St) as (r & Er & Fr). rewrite Er. cbn [bind].
  destruct r as [[[l st] o1]|].
  - assert (Hi' : inv s0 (tset s t (l, st)) (o0 ++ map (pair t) o1)).
    { destruct (other_loop_spec w mainend masterend tst (fst (s0 t)) Hm _ _ _ _ _ Bok Er _ G St) as (A1 & A2 & A3 & _).
      intros u. rewrite of_track_app, of_track_pair. unfold tset. destruct (Z.eqb_spec u t) as [->|Hu].
      - rewrite Z.eqb_refl. auto.
      - replace (t =? u) with false by lia. rewrite app_nil_r. apply Hi. }
    destruct (IH _ _ (fun x Hx => Hin x (or_intror Hx)) Hi') as (r2 & E2 & F2). rewrite E2. cbn [bind].
    destruct r2 as [[s2 o2]|]; eexists; (split; [reflexivity|]); [|exact F2].
    apply Forall_app. split; [|exact F2]. apply Forall_forall. intros p Hp. apply in_map_iff in Hp. destruct Hp as (i & <- & Hp). cbn [snd].
    rewrite Forall_forall in Fr. apply Fr, Hp.
  - eexists. split; [reflexivity|]. destruct Fr as (b & H1 & H2). exists t, b. split; [right; apply Hin; left; reflexivity|]. split; [|exact H2].
    eapply inv_in; eassumption.
Qed.

Lemma round_total masterend tst s b l o0 : masterend <= INVALID_TIMESTAMP -> lim tst -> fst (s main) = b :: l -> snd (s main) = O -> inv s0 s o0 ->
  exists r, round w masterend tst order main s = Ok r /\
    match r with Some (_, _, o) => Forall (fun p => item_ok sc masterend tst (snd p)) o | None => too_far tst end.
Proof.
  intros Hm Ht El Es Hi. unfold round. rewrite El. cbv zeta.
  destruct (others_total (match l with [] => INVALID_TIMESTAMP | n :: _ => bi_dec n end) masterend tst Hm Ht order s o0 (incl_refl _) Hi) as (r & E1 & F1). rewrite E1. cbn [bind].
  destruct (Hi main) as (_ & _ & Bok). rewrite El in Bok. apply Forall_cons_iff in Bok. destruct Bok as [Bok _].
  destruct r as [[s1 o1]|]; [|eexists; split; [reflexivity|exact F1]].
  destruct (k_frames (bi_blk b)) as [|f fs] eqn:Ef; [destruct Bok as [[Bok _] _]; contradiction|]. rewrite <- Ef.
  rewrite local_of_val by (apply lim_big; first [exact Ht | apply time_lim, Bok]). cbn [bind].
  destruct (in16 (Z.quot (k_time (bi_blk b) - tst) sc)) eqn:E16; eexists; (split; [reflexivity|]).
  - apply Forall_app. split; [exact F1|]. constructor; [|constructor]. cbn [snd]. unfold item_ok. cbn [i_whole i_blk i_from i_frames i_local]. auto.
  - exists main, b. split; [left; reflexivity|]. split; [|exact E16]. apply (inv_in s o0); [exact Hi|rewrite El; left; reflexivity].
Qed.

Lemma cluster_total times tst : lim tst -> forall fuel s o0,
  (length (fst (s main)) <= fuel)%nat -> snd (s main) = O -> inv s0 s o0 -> Forall (fun t => t < INVALID_TIMESTAMP) times ->
  exists r, cluster_loop w fuel (limit times) tst order main s = Ok r /\
    match r with Some (s', o) => Forall (fun p => item_ok sc (limit times) tst (snd p)) o /\ (length (fst (s' main)) <= length (fst (s main)))%nat | None => too_far tst end.
Proof.
  intros Ht fuel. induction fuel as [|f IH]; intros s o0 Hf Hs Hi Htm; cbn [cluster_loop]; destruct (fst (s main)) as [|b l] eqn:El;
    try (eexists; split; [reflexivity|split; [constructor|rewrite El; lia]]); [cbn [length] in Hf; lia|].
  assert (Hm : limit times <= INVALID_TIMESTAMP).
  { destruct times as [|x times]; cbn [limit]; [lia|]. apply Forall_cons_iff in Htm. lia. }
  destruct (round_total (limit times) tst s b l o0 Hm Ht El Hs Hi) as (r & E1 & F1). rewrite E1. cbn [bind].
  destruct r as [[[reached s1] o1]|]; [|eexists; split; [reflexivity|exact F1]].
  destruct (round_spec w s0 order main Hmain _ _ _ _ _ _ _ _ _ Hm El Hs Hi E1) as (A1 & A2 & _).
  destruct reached; [eexists; split; [reflexivity|split; [exact F1|rewrite A2; cbn [fst length]; lia]]|].
  cbn [length] in Hf.
  destruct (IH s1 (o0 ++ o1) ltac:(rewrite A2; cbn [fst]; lia) ltac:(rewrite A2; reflexivity) A1 Htm) as (r2 & E2 & F2). rewrite E2. cbn [bind].
  destruct r2 as [[s2 o2]|]; eexists; (split; [reflexivity|]); [|exact F2].
  destruct F2 as [F2 F3]. rewrite A2 in F3. cbn [fst length] in *. split; [apply Forall_app; auto|lia].
Qed.
(** Each cluster with its limit. *)
Fixpoint each (P : Z -> Z -> list (Z * item) -> Prop) (c : list (Z * list (Z * item))) : Prop :=
  match c with
  | [] => True
  | (t, o) :: c' => P (limit (map fst c')) t o /\ each P c'
  end.
Lemma clusters_total fuel : forall times tst s o0,
  fst (s main) <> [] -> (length (fst (s main)) <= fuel)%nat -> snd (s main) = O -> inv s0 s o0 -> times_ok times (fst (s main)) -> Forall lim (tst :: times) ->
  exists r, clusters_loop w fuel (tst :: times) order main s = Ok r /\
    match r with Some (_, c) => each (fun m t o => Forall (fun p => item_ok sc m t (snd p)) o) c | None => exists t, In t (tst :: times) /\ too_far t end.
Proof.
  intros times. induction times as [|x times IH]; intros tst s o0 Hne Hf Hs Hi Ht HL; rewrite clusters_loop_step;
    apply Forall_cons_iff in HL; destruct HL as [HL1 HL].
  - destruct (cluster_total [] tst HL1 fuel s o0 Hf Hs Hi ltac:(constructor)) as (r & E1 & F1). rewrite E1. cbn [bind].
    destruct r as [[s1 o1]|]; [|eexists; split; [reflexivity|exists tst; split; [left; reflexivity|exact F1]]].
    cbn [clusters_loop bind]. eexists. split; [reflexivity|]. cbn [each map limit]. split; [apply F1|exact I].
  - destruct (cluster_total (x :: times) tst HL1 fuel s o0 Hf Hs Hi (proj1 Ht)) as (r & E1 & F1). rewrite E1. cbn [bind].
    destruct r as [[s1 o1]|]; [|eexists; split; [reflexivity|exists tst; split; [left; reflexivity|exact F1]]].
    destruct (cluster_loop_spec w s0 order main Hmain _ _ _ _ _ _ _ Hne Hs Hi Ht E1) as (A1 & A2 & A3 & A4).
    destruct F1 as [F1 F1'].
    destruct (IH x s1 (o0 ++ o1) A3 ltac:(lia) A2 A1 A4 HL) as (r2 & E2 & F2). rewrite E2. cbn [bind].
    destruct r2 as [[s2 c2]|]; eexists; (split; [reflexivity|]).
    + cbn [each]. split; [|exact F2]. destruct (clusters_loop_spec w s0 order main Hmain fuel _ _ _ _ _ _ A3 A2 A1 A4 E2) as (_ & _ & ->). exact F1.
    + destruct F2 as (t & H1 & H2). exists t. split; [right; exact H1|exact H2].
Qed.
End P.
