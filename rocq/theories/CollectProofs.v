(** Proofs about asking for memory back. *)
From Verif Require Import Base Collect CollectSpec.

Section P.
Context (S : Type).
Implicit Types (l : list (collector S)) (s : S).

Lemma pass_asked l level s c n s' c' n' log : pass l level s c n = (s', c', n', log) ->
  exists vs, asked level l s s' vs /\ log = map (fun v => (level, v)) vs /\
    (c' = true <-> c = true \/ In (-1) vs) /\
    n' <= n /\ (n' = n \/ (In n' vs /\ level < n')) /\ (forall v, In v vs -> v <> -1 -> level < v -> n' <= v).
Proof.
  revert s c n s' c' n' log. induction l as [|f l IH]; intros s c n s' c' n' log; cbn [pass].
  - intros [= <- <- <- <-]. exists []. split; [constructor|]. split; [auto|]. split; [intuition|]. split; [lia|]. split; [auto|]. intros v [].
  - destruct (f s level) as [s1 v] eqn:F.
    destruct (pass l level s1 _ _) as [[[s2 c2] n2] log2] eqn:P. intros [= <- <- <- <-].
    apply IH in P. destruct P as (vs & A & -> & C & N1 & N2 & N3). exists (v :: vs).
    split; [econstructor; eauto|]. split; [auto|]. unfold COLLECT_FOUND in *.
    destruct (Z.eqb_spec v (-1)) as [->|Nv].
    + split. { rewrite C. cbn. intuition. } split; [auto|]. split. { destruct N2 as [|(X & Y)]; [auto|]. right. cbn. auto. }
      intros w [<-|W] Nw L; [congruence|]. auto.
    + split. { rewrite C. cbn. intuition. }
      destruct ((v <? n) && (level <? v)) eqn:G.
      * split; [lia|]. split. { right. destruct N2 as [->|(X & Y)]; cbn; [split; [auto|lia]|auto]. }
        intros w [<-|W] Nw L; [lia|]. auto.
      * split; [auto|]. split. { destruct N2 as [|(X & Y)]; [auto|]. right. cbn. auto. }
        intros w [<-|W] Nw L; [|auto]. lia.
Qed.

Lemma passes_rounds l fuel level s s' b log : 0 <= level -> passes fuel l level s = Some (s', b, log) -> rounds l level s s' b log.
Proof.
  revert level s s' b log. induction fuel as [|fuel IH]; intros level s s' b log L; cbn [passes]; [discriminate|].
  destruct (pass l level s false INT_MAX) as [[[s1 c] n] log1] eqn:P.
  apply pass_asked in P. destruct P as (vs & A & -> & C & N1 & N2 & N3). unfold INT_MAX in *.
  assert (C' : c = true -> In (-1) vs) by (intros E; apply C in E; destruct E; [discriminate|auto]).
  assert (C'' : In (-1) vs -> c = true) by (intros E; apply C; auto).
  destruct (Z.eqb_spec n (2 ^ 31 - 1)) as [->|Nn].
  - intros [= <- <- <-]. destruct c; [apply rounds_found; auto|]. apply rounds_end; auto.
    + intros X. apply C'' in X. discriminate.
    + intros v V. destruct (Z_le_gt_dec v level); [auto|]. right. apply Z.le_ge. apply N3; auto; lia.
  - destruct c; [intros [= <- <- <-]; apply rounds_found; auto|].
    destruct (passes fuel l n s1) as [[[s2 b2] log2]|] eqn:Q; [|discriminate]. intros [= <- <- <-].
    destruct N2 as [|(X & Y)]; [congruence|].
    eapply rounds_more with (n := n); eauto.
    + intros Z. apply C'' in Z. discriminate.
    + split; [auto|]. split; [lia|]. intros v V Lv. apply N3; auto. lia.
    + apply IH; [lia|auto].
Qed.

Lemma passes_end l level s : 0 <= level -> exists fuel r, passes fuel l level s = Some r.
Proof.
  intros L. remember (Z.to_nat (2 ^ 31 - level)) as k eqn:E.
  assert (K : 2 ^ 31 - level <= Z.of_nat k) by lia. clear E. revert level s L K.
  induction k as [|k IH]; intros level s L K; destruct (pass l level s false INT_MAX) as [[[s1 c] n] log1] eqn:P;
    pose proof P as P'; apply pass_asked in P'; destruct P' as (vs & A & _ & C & N1 & N2 & N3); unfold INT_MAX in *.
  - exists 1%nat. cbn [passes]. unfold INT_MAX. rewrite P. destruct (Z.eqb_spec n (2 ^ 31 - 1)); [eauto|]. destruct c; [eauto|].
    exfalso. destruct N2 as [|(X & Y)]; [congruence|]. lia.
  - destruct (Z.eqb_spec n (2 ^ 31 - 1)) as [->|Nn].
    + exists 1%nat. cbn [passes]. unfold INT_MAX. rewrite P. rewrite Z.eqb_refl. eauto.
    + destruct N2 as [|(X & Y)]; [congruence|].
      destruct (IH n s1) as (fuel & r & Hr); [lia|lia|].
      exists (Datatypes.S fuel). cbn [passes]. unfold INT_MAX. rewrite P. rewrite (proj2 (Z.eqb_neq _ _) Nn). destruct c; [eauto|].
      rewrite Hr. destruct r as [[s2 b2] log2]. eauto.
Qed.
End P.

(** ** What the rounds are *)
Section R.
Context (S : Type).
Implicit Types (l : list (collector S)).

Lemma asked_length level l s s' vs : asked level l s s' vs -> length vs = length l.
Proof. induction 1; cbn; congruence. Qed.
Lemma rounds_levels l level s s' b log : rounds l level s s' b log ->
  forall x, In x log -> level <= fst x.
Proof.
  induction 1 as [level s s' vs A F|level s s' vs A F N|level s s1 s2 vs n b log A F N R IH]; intros x X.
  - apply in_map_iff in X. destruct X as (v & <- & _). cbn. lia.
  - apply in_map_iff in X. destruct X as (v & <- & _). cbn. lia.
  - apply in_app_or in X. destruct X as [X|X].
    + apply in_map_iff in X. destruct X as (v & <- & _). cbn. lia.
    + apply IH in X. destruct N as (_ & N & _). lia.
Qed.
(** Levels never go down. *)
Lemma rounds_sorted l level s s' b log : rounds l level s s' b log ->
  forall i j x y, (i < j)%nat -> nth_error log i = Some x -> nth_error log j = Some y -> fst x <= fst y.
Proof.
  assert (M : forall (vs : list Z) (lv : Z) i (x : Z * Z), nth_error (map (fun v => (lv, v)) vs) i = Some x -> fst x = lv).
  { intros vs lv i x X. apply nth_error_In in X. apply in_map_iff in X. destruct X as (v & <- & _). reflexivity. }
  induction 1 as [level s s' vs A F|level s s' vs A F N|level s s1 s2 vs n b log A F N R IH]; intros i j x y I X Y.
  - apply M in X. apply M in Y. lia.
  - apply M in X. apply M in Y. lia.
  - destruct (Nat.lt_ge_cases i (length (map (fun v : Z => (level, v)) vs))) as [Li|Li].
    + rewrite nth_error_app1 in X by auto. apply M in X.
      destruct (Nat.lt_ge_cases j (length (map (fun v : Z => (level, v)) vs))) as [Lj|Lj].
      * rewrite nth_error_app1 in Y by auto. apply M in Y. lia.
      * rewrite nth_error_app2 in Y by auto. apply nth_error_In in Y. apply (rounds_levels _ _ _ _ _ _ R) in Y. destruct N as (_ & N & _). lia.
    + rewrite nth_error_app2 in X by auto. rewrite nth_error_app2 in Y by lia. eapply IH; [|exact X|exact Y]. lia.
Qed.
(** Found or not is in the answers, and nothing is asked above the level where some was found. *)
Lemma rounds_found_iff l level s s' b log : rounds l level s s' b log -> (b = true <-> exists lv, In (lv, -1) log).
Proof.
  induction 1 as [level s s' vs A F|level s s' vs A F N|level s s1 s2 vs n b log A F N R IH].
  - split; [|auto]. intros _. exists level. apply in_map_iff. eauto.
  - split; [discriminate|]. intros (lv & X). exfalso. apply in_map_iff in X. destruct X as (v & [= <- ->] & V). auto.
  - rewrite IH. split; intros (lv & X); exists lv; [apply in_or_app; auto|]. apply in_app_or in X. destruct X as [X|X]; [|auto].
    exfalso. apply in_map_iff in X. destruct X as (v & [= <- ->] & V). auto.
Qed.
Lemma rounds_stop l level s s' b log : rounds l level s s' b log -> forall lv, In (lv, -1) log -> forall x, In x log -> fst x <= lv.
Proof.
  induction 1 as [level s s' vs A F|level s s' vs A F N|level s s1 s2 vs n b log A F N R IH]; intros lv X x Y.
  - apply in_map_iff in X. destruct X as (v & [= <- ->] & V). apply in_map_iff in Y. destruct Y as (w & <- & _). cbn. lia.
  - apply in_map_iff in X. destruct X as (v & [= <- ->] & V). apply in_map_iff in Y. destruct Y as (w & <- & _). cbn. lia.
  - apply in_app_or in X. destruct X as [X|X].
    { exfalso. apply in_map_iff in X. destruct X as (v & [= <- ->] & V). auto. }
    apply in_app_or in Y. destruct Y as [Y|Y]; [|eapply IH; eauto].
    apply in_map_iff in Y. destruct Y as (w & <- & _). cbn. apply (rounds_levels _ _ _ _ _ _ R) in X. cbn in X. destruct N as (_ & N & _). lia.
Qed.
(** Every level is 0 or was asked for by somebody before. *)
Lemma rounds_asked_for l level s s' b log : rounds l level s s' b log ->
  forall x, In x log -> fst x = level \/ exists lv, In (lv, fst x) log /\ lv < fst x.
Proof.
  induction 1 as [level s s' vs A F|level s s' vs A F N|level s s1 s2 vs n b log A F N R IH]; intros x X.
  - apply in_map_iff in X. destruct X as (v & <- & _). auto.
  - apply in_map_iff in X. destruct X as (v & <- & _). auto.
  - apply in_app_or in X. destruct X as [X|X].
    + apply in_map_iff in X. destruct X as (v & <- & _). auto.
    + right. destruct (IH x X) as [->|(lv & I & L)].
      * exists level. destruct N as (N1 & N2 & _). split; [|lia]. apply in_or_app. left. apply in_map_iff. eauto.
      * exists lv. split; [|auto]. apply in_or_app. auto.
Qed.
End R.
