From Coq Require Import Permutation.
From Verif Require Import Base BaseProofs Tree BlockTime BlockTimeProofs BlockProofs MkSchema TrackClean TrackCleanSpec TrackCleanProofs TrackCleanProofs2 TrackCleanProofs3.

(** *** Numbers that are not used *)
Definition above (f : ctrack -> option Z) (n : Z) (t : ctrack) : bool := match f t with Some y => n <=? y | None => false end.
Definition cnt (f : ctrack -> option Z) (l : list ctrack) (n : Z) : nat := length (filter (above f n) l).
Lemma cnt_len f l n : (cnt f l n <= length l)%nat.
Proof. unfold cnt. induction l as [|t l IH]; [constructor|]. cbn [filter]. destruct (above f n t); cbn [length]; lia. Qed.
Lemma cnt_mono f l n : (cnt f l (n + 1) <= cnt f l n)%nat.
Proof.
  unfold cnt. induction l as [|t l IH]; [constructor|]. cbn [filter]. destruct (above f (n + 1) t) eqn:A; destruct (above f n t) eqn:B; cbn [length]; try lia. exfalso. unfold above in *. destruct (f t); [lia|discriminate].
Qed.
Lemma cnt_used f l n : used f l n = true -> (cnt f l (n + 1) < cnt f l n)%nat.
Proof.
  unfold used. intros H. induction l as [|t l IH]; [discriminate|]. cbn [existsb] in H. apply orb_true_iff in H. pose proof (cnt_mono f l n) as M. unfold cnt in *. cbn [filter]. destruct H as [H|H].
  - assert (A : above f (n + 1) t = false /\ above f n t = true) by (unfold above; destruct (f t); [apply Z.eqb_eq in H; subst; split; lia|discriminate]). destruct A as [-> ->]. cbn [length]. lia.
  - specialize (IH H). destruct (above f (n + 1) t) eqn:A; destruct (above f n t) eqn:B; cbn [length]; try lia. exfalso. unfold above in *. destruct (f t); [lia|discriminate].
Qed.
Lemma free_ok f l fuel : forall n, (cnt f l n <= fuel)%nat -> n + Z.of_nat (cnt f l n) < 2 ^ 31 ->
  exists x, free fuel f l n = Ok x /\ n <= x <= n + Z.of_nat (cnt f l n) /\ used f l x = false.
Proof.
  induction fuel as [|fuel IH]; intros n C B; cbn [free]; replace (2 ^ 31 <=? n) with false by lia.
  - destruct (used f l n) eqn:U; [apply cnt_used in U; lia|]. exists n. split; [reflexivity|]. split; [lia|exact U].
  - destruct (used f l n) eqn:U; [|exists n; split; [reflexivity|]; split; [lia|exact U]]. apply cnt_used in U. destruct (IH (n + 1)) as (x & E & X & N); [lia|lia|]. exists x. split; [exact E|]. split; [lia|exact N].
Qed.
Lemma free_max f l M fuel : (forall t y, In t l -> f t = Some y -> y <= M) -> M + 1 < 2 ^ 31 -> forall n, (cnt f l n <= fuel)%nat -> n <= M + 1 ->
  exists x, free fuel f l n = Ok x /\ n <= x <= M + 1 /\ used f l x = false.
Proof.
  intros Max B. assert (Le : forall n, used f l n = true -> n <= M).
  { intros n U. unfold used in U. apply existsb_exists in U. destruct U as (t & I & E). destruct (f t) eqn:Ef; [|discriminate]. apply Z.eqb_eq in E. subst. exact (Max t n I Ef). }
  induction fuel as [|fuel IH]; intros n C N; cbn [free]; replace (2 ^ 31 <=? n) with false by lia.
  - destruct (used f l n) eqn:U; [apply cnt_used in U; lia|]. exists n. split; [reflexivity|]. split; [lia|exact U].
  - destruct (used f l n) eqn:U; [|exists n; split; [reflexivity|]; split; [lia|exact U]]. pose proof (Le n U). apply cnt_used in U. destruct (IH (n + 1)) as (x & E & X & N'); [lia|lia|]. exists x. split; [exact E|]. split; [lia|exact N'].
Qed.
Definition vals (f : ctrack -> option Z) (l : list ctrack) : list Z := flat_map (fun t => match f t with Some u => [u] | None => [] end) l.
Lemma vals_app f a b : vals f (a ++ b) = vals f a ++ vals f b.
Proof. unfold vals. apply flat_map_app. Qed.
Lemma vals_in f l x : In x (vals f l) <-> exists t, In t l /\ f t = Some x.
Proof. unfold vals. rewrite in_flat_map. split; intros (t & I & H); exists t; (split; [exact I|]); destruct (f t); cbn in *; [destruct H as [->|[]]; reflexivity|contradiction|injection H as ->; auto|discriminate]. Qed.
Lemma unused f l x : used f l x = false <-> ~ In x (vals f l).
Proof.
  rewrite vals_in. split.
  - intros U (t & I & E). assert (K : used f l x = true) by (unfold used; apply existsb_exists; exists t; rewrite E, Z.eqb_refl; auto). congruence.
  - intros N. apply not_true_iff_false. intros U. unfold used in U. apply existsb_exists in U. destruct U as (t & I & E). apply N. exists t. split; [exact I|]. destruct (f t); [apply Z.eqb_eq in E; congruence|discriminate].
Qed.

Section Main.
Context (feq : Z -> Z -> bool) (attached : option (list Z)) (dr : Z).
Notation step := (step dr).

(** What [combine] makes. *)
Lemma combine_ok m done t a o b M : sound dr t -> sound dr o -> mode_of t = Some 0 -> ((m = 2 /\ mode_of o = Some 1) \/ (m = 1 /\ mode_of o = Some 2)) ->
  (forall c y, In c (done ++ t :: a ++ o :: b) -> k_num c = Some y -> y <= M) -> M + 1 < 2 ^ 31 -> 2 * zlen (done ++ t :: a ++ o :: b) + 4 < 2 ^ 31 ->
  (k_uid t = None /\ combine m done t a o b = Null) \/
  (exists u o' c, k_uid t = Some u /\ combine m done t a o b = Ok ((done ++ t :: a ++ o' :: b) ++ [c]) /\ step o o' /\ marked o' = Some 0 /\ sound dr c /\
     (exists w p q, k_uid o' = Some w /\ k_ops c = k_ops t ++ [[(u, p); (w, q)]] /\ ((m = 2 /\ p = 0 /\ q = 1) \/ (m = 1 /\ p = 1 /\ q = 0))) /\
     k_type c = k_type t /\ k_codec c = Some V_COMBINED /\ marked c = Some 0 /\
     (exists n, k_num c = Some n /\ n <= M + 1 /\ ~ In n (vals k_num (done ++ t :: a ++ o :: b))) /\
     (NoDup (vals k_uid (done ++ t :: a ++ o :: b)) -> NoDup (vals k_uid ((done ++ t :: a ++ o' :: b) ++ [c])))).
Proof.
  intros St So Mt Mo Max B L. destruct (sound_elim dr t St) as (n0 & ty & En & Hn & Et & Hty & C & V & A).
  destruct (set_other_ok dr o 0 So) as (O1 & O2 & O3 & O4 & O5); [destruct Mo as [[_ E]|[_ E]]; congruence|].
  unfold combine. cbv beta zeta. set (o1 := set_other_mode o 0) in *.
  assert (Vn : vals k_num (done ++ t :: a ++ o1 :: b) = vals k_num (done ++ t :: a ++ o :: b)).
  { rewrite !vals_app. cbn [vals flat_map]. change (flat_map (fun t0 => match k_num t0 with Some u => [u] | None => [] end)) with (vals k_num). rewrite !vals_app. cbn [vals flat_map]. destruct O4 as [-> _]. reflexivity. }
  assert (Vu : vals k_uid (done ++ t :: a ++ o1 :: b) = vals k_uid (done ++ t :: a ++ o :: b)).
  { rewrite !vals_app. cbn [vals flat_map]. change (flat_map (fun t0 => match k_uid t0 with Some u => [u] | None => [] end)) with (vals k_uid). rewrite !vals_app. cbn [vals flat_map]. rewrite O3. reflexivity. }
  assert (Ln : length (done ++ t :: a ++ o1 :: b) = length (done ++ t :: a ++ o :: b)) by (rewrite !app_length; cbn [length]; rewrite !app_length; reflexivity).
  set (all1 := done ++ t :: a ++ o1 :: b) in *. set (all := done ++ t :: a ++ o :: b) in *. unfold zlen in L.
  assert (Max1 : forall c y, In c all1 -> k_num c = Some y -> y <= M).
  { intros c y I E. assert (K : In y (vals k_num all)) by (rewrite <- Vn; apply vals_in; exists c; auto). apply vals_in in K. destruct K as (c' & I' & E'). exact (Max c' y I' E'). }
  rewrite En. cbn [zero_or]. rewrite s32_small by lia.
  assert (In t all1) by (unfold all1; apply in_or_app; right; left; reflexivity).
  destruct (free_max k_num all1 M (S (S (S (length all1)))) Max1 B (n0 + 1)) as (n & E1 & X1 & U1); [pose proof (cnt_len k_num all1 (n0 + 1)); lia|pose proof (Max1 t n0 H En); lia|].
  rewrite E1. cbn [bind]. destruct (k_uid t) as [u|] eqn:Eu; [|left; split; reflexivity]. right.
  pose proof (cnt_len k_uid all1 1) as Cl.
  destruct (free_ok k_uid all1 (S (S (S (length all1)))) 1) as (u0 & E2 & X2 & U2); [lia|lia|]. rewrite E2. cbn [bind].
  set (comb := fun ops => mkCt (Some n) (Some u0) (k_type t) (Some V_COMBINED) ops (k_video t) (k_audio t) (tl (k_links t))).
  assert (R : exists w o', (match k_uid o1 with
               | Some x => Ok (x, o1)
               | None => do x <- free (S (S (S (length all1)))) k_uid (all1 ++ [comb (k_ops t)]) u0; Ok (x, with_uid o1 x)
               end) = Ok (w, o') /\ step o o' /\ marked o' = Some 0 /\ k_uid o' = Some w /\
               (NoDup (vals k_uid all) -> NoDup (vals k_uid ((done ++ t :: a ++ o' :: b) ++ [comb []])))).
  { assert (Mk1 : marked o1 = Some 0) by (rewrite marked_mode, O2; reflexivity).
    assert (Mko : exists x, marked o = Some x /\ x <> 0 /\ x <= 3) by (rewrite marked_mode; destruct Mo as [[_ ->]|[_ ->]]; [exists 1|exists 2]; split; [reflexivity| |reflexivity|]; lia).
    destruct (k_uid o1) as [w|] eqn:Ew.
    - exists w, o1. split; [reflexivity|]. split.
      + split; [|exact O1]. constructor; [exact O4|left; congruence|exact O5|]. right. left. destruct Mko as (x & X). exists x. rewrite Mk1. tauto.
      + split; [exact Mk1|]. split; [exact Ew|]. intros ND. fold all1. rewrite vals_app. cbn [vals flat_map k_uid comb app]. change (flat_map (fun t0 => match k_uid t0 with Some u => [u] | None => [] end) all1) with (vals k_uid all1). rewrite Vu. apply NoDup_Add with (a := u0) (l := vals k_uid all); [rewrite <- (app_nil_r (vals k_uid all)) at 1; apply Add_app|]. split; [exact ND|]. rewrite <- Vu. apply unused. exact U2.
    - set (l2 := all1 ++ [comb (k_ops t)]). assert (L2 : length l2 = S (length all1)) by (unfold l2; rewrite app_length; cbn; lia).
      pose proof (cnt_len k_uid l2 u0) as C2. destruct (free_ok k_uid l2 (S (S (S (length all1)))) u0) as (w & E3 & X3 & U3); [lia|lia|]. rewrite E3. cbn [bind]. exists w, (with_uid o1 w). split; [reflexivity|]. split.
      + split.
        * constructor; [exact O4|right; split; [congruence|discriminate]|exact O5|]. right. left. destruct Mko as (x & X). exists x. change (marked (with_uid o1 w)) with (marked o1). rewrite Mk1. tauto.
        * destruct (sound_elim dr o1 O1) as (n1 & ty1 & K1 & K2 & K3 & K4 & K5 & K6 & K7). apply (sound_intro dr _ n1 ty1); assumption.
      + split; [exact Mk1|]. split; [reflexivity|]. intros ND. apply unused in U3. unfold l2 in U3. rewrite vals_app in U3. rewrite <- Vu in ND. apply unused in U2.
        assert (N2 : NoDup (w :: u0 :: vals k_uid all1)).
        { constructor; [|constructor; [exact U2|exact ND]]. intros [->|I]; apply U3; apply in_or_app; [right; left; reflexivity|left; exact I]. }
        assert (P : Permutation (w :: u0 :: vals k_uid all1) (vals k_uid ((done ++ t :: a ++ with_uid o1 w :: b) ++ [comb []]))).
        { unfold all1. rewrite !vals_app. cbn [vals flat_map k_uid comb app with_uid]. change (flat_map (fun t0 => match k_uid t0 with Some u => [u] | None => [] end)) with (vals k_uid). rewrite !vals_app. cbn [vals flat_map k_uid comb app with_uid]. rewrite Ew, Eu. change (flat_map (fun t0 => match k_uid t0 with Some u => [u] | None => [] end)) with (vals k_uid). cbn [app].
          set (x := vals k_uid done). set (y := vals k_uid a). set (z := vals k_uid b).
          transitivity (u0 :: w :: x ++ u :: y ++ z); [apply perm_swap|]. transitivity ((x ++ u :: y ++ w :: z) ++ [u0]); [|reflexivity]. rewrite <- Permutation_cons_append. constructor.
          transitivity (x ++ w :: u :: y ++ z); [apply Permutation_middle|]. apply Permutation_app_head. transitivity (u :: w :: y ++ z); [apply perm_swap|]. constructor. apply Permutation_middle. }
        exact (Permutation_NoDup P N2). }
  destruct R as (w & o' & ER & So' & Mo' & Uo' & ND). unfold comb in ER. fold all1. rewrite ER. cbn [bind Datatypes.fst Datatypes.snd]. eexists u, o', _. split; [reflexivity|]. split; [reflexivity|]. split; [exact So'|]. split; [exact Mo'|]. split.
  - apply (sound_intro dr _ n ty); [reflexivity|lia|exact Et|exact Hty|left; discriminate|exact V|exact A].
  - split; [|split; [reflexivity|split; [reflexivity|split; [|split]]]].
    + exists w, (if m =? 2 then 0 else 1), (if m =? 1 then 0 else 1). split; [exact Uo'|]. split; [reflexivity|]. destruct Mo as [[-> _]|[-> _]]; [left|right]; auto.
    + rewrite marked_mode. unfold mode_of in *. cbn [k_video]. rewrite Mt. reflexivity.
    + exists n. split; [reflexivity|]. split; [lia|]. rewrite <- Vn. apply unused. exact U1.
    + intros K. specialize (ND K). rewrite vals_app in ND |- *. exact ND.
Qed.

Definition flag (t : ctrack) : bool := match marked t with Some x => negb (x =? 0) && (x <=? 3) | None => false end.
Definition flags (l : list ctrack) : nat := length (filter flag l).
Lemma flags_app a b : flags (a ++ b) = (flags a + flags b)%nat.
Proof. unfold flags. rewrite filter_app, app_length. reflexivity. Qed.
Lemma flags_cons t l : flags (t :: l) = ((if flag t then 1 else 0) + flags l)%nat.
Proof. unfold flags. cbn [filter]. destruct (flag t); reflexivity. Qed.
Lemma flag_follows t t' : follows t t' -> flag t = false -> flag t' = false.
Proof.
  intros [_ _ _ M] F. unfold flag in *. destruct M as [M|[(x & M1 & N0 & N3 & M)|[M1 M]]]; rewrite M; [exact F|reflexivity|]. rewrite M1 in F. discriminate.
Qed.
Lemma flags_steps l l' : Forall2 step l l' -> (flags l' <= flags l)%nat.
Proof.
  intros F. induction F as [|t t' l l' [S _] F IH]; [constructor|]. rewrite !flags_cons. destruct (flag t) eqn:A; [destruct (flag t'); lia|]. rewrite (flag_follows _ _ S A). lia.
Qed.
Lemma unmarked_flag t : unmarked t -> flag t = false.
Proof. intros U. unfold flag. destruct (marked t) as [x|] eqn:E; [|reflexivity]. destruct (U x E); [subst; reflexivity|]. apply andb_false_iff. right. lia. Qed.

Lemma steps_sound l l' : Forall2 step l l' -> Forall (sound dr) l'.
Proof. intros F. induction F as [|t t' l l' [_ S] F IH]; constructor; assumption. Qed.
Lemma steps_num l l' : Forall2 step l l' -> vals k_num l' = vals k_num l.
Proof. intros F. induction F as [|t t' l l' [S _] F IH]; [reflexivity|]. cbn [vals flat_map]. destruct (fo_same _ _ S) as [-> _]. f_equal. exact IH. Qed.
(** Only the tracks before the pair keep their UIDs for sure. *)
Lemma steps_nth l l' : Forall2 step l l' -> forall i t, nth_error l i = Some t -> exists t', nth_error l' i = Some t' /\ step t t'.
Proof. intros F. induction F as [|t t' l l' S F IH]; intros [|i] x E; try discriminate; cbn in *; [injection E as <-; exists t'; auto|exact (IH i x E)]. Qed.
Lemma f2_nth {A B} (R : A -> B -> Prop) l l' : Forall2 R l l' -> forall i t', nth_error l' i = Some t' -> exists t, nth_error l i = Some t /\ R t t'.
Proof. intros F. induction F as [|t t' l l' S F IH]; intros [|i] x E; try discriminate; cbn in *; [injection E as <-; exists t; auto|exact (IH i x E)]. Qed.
Lemma made_steps l o1 o2 c c' : Forall2 step o1 o2 -> follows c c' -> made_of l o1 c -> made_of l o2 c'.
Proof.
  intros F Fc (i & j & a & b & a' & b' & u & w & p & q & Q1 & Q2 & Q3 & Q4 & Q5 & Q6 & Q7 & Q8 & Q9 & Q10 & Q11 & Q12 & Q13 & Q14).
  destruct (steps_nth _ _ F i a' Q4) as (a2 & A1 & [A2 _]). destruct (steps_nth _ _ F j b' Q5) as (b2 & B1 & [B2 _]). destruct Fc as [(C1 & C2 & C3 & C4) _ _ C5].
  exists i, j, a, b, a2, b2, u, w, p, q. split; [exact Q1|]. split; [exact Q2|]. split; [exact Q3|]. split; [exact A1|]. split; [exact B1|].
  split; [destruct (fo_uid _ _ A2) as [K|[K _]]; congruence|]. split; [destruct (fo_uid _ _ B2) as [K|[K _]]; congruence|]. split; [exact Q8|]. split; [exact Q9|]. split; [exact Q10|]. split; [congruence|]. split; [congruence|]. split; [congruence|].
  destruct C5 as [K|[(x & K1 & K2 & _)|[K1 _]]]; congruence.
Qed.
Lemma f2_len {A B} (R : A -> B -> Prop) l l' : Forall2 R l l' -> length l = length l'.
Proof. intros F. induction F; cbn; [reflexivity|f_equal; assumption]. Qed.
Lemma f2_split {A B} (R : A -> B -> Prop) a b l' : Forall2 R (a ++ b) l' -> exists a' b', l' = a' ++ b' /\ Forall2 R a a' /\ Forall2 R b b'.
Proof. intros H. apply Forall2_app_inv_l in H. destruct H as (a' & b' & Fa & Fb & ->). exists a', b'. auto. Qed.
Lemma made_all l o1 o2 cs cs' : Forall2 step o1 o2 -> Forall2 step cs cs' -> Forall (made_of l o1) cs -> Forall (made_of l o2) cs'.
Proof. intros Fo Fc. induction Fc as [|c c' cs cs' [S _] Fc IH]; intros H; [constructor|]. apply Forall_cons_iff in H. destruct H as [H1 H2]. constructor; [exact (made_steps l o1 o2 c c' Fo S H1)|exact (IH H2)]. Qed.
Lemma follows_all l a b : Forall2 follows l a -> Forall2 step a b -> Forall2 follows l b.
Proof. intros H. revert b. induction H as [|t x l a S H IH]; intros b F; inversion F; subst; constructor; [|apply IH; assumption]. destruct H2 as [K _]. exact (follows_trans _ _ _ S K). Qed.

Record inv (l cur : list ctrack) : Prop := {
  iv_split : exists orig cs, cur = orig ++ cs /\ Forall2 follows l orig /\ Forall (made_of l orig) cs;
  iv_sound : Forall (sound dr) cur;
  iv_num : NoDup (vals k_num l) -> NoDup (vals k_num cur);
  iv_uid : NoDup (vals k_uid l) -> NoDup (vals k_uid cur) }.

Lemma step_refl t : sound dr t -> step t t.
Proof. intros S. split; [apply follows_refl|exact S]. Qed.
Lemma steps_refl l : Forall (sound dr) l -> Forall2 step l l.
Proof. intros H. induction H; constructor; [apply step_refl; assumption|assumption]. Qed.
Lemma uid_steps l l' : Forall2 (fun t t' => step t t' /\ k_uid t' = k_uid t) l l' -> vals k_uid l' = vals k_uid l.
Proof. intros F. induction F as [|t t' l l' [_ S] F IH]; [reflexivity|]. cbn [vals flat_map]. rewrite S. f_equal. exact IH. Qed.

Lemma locate l orig cs i t : Forall2 follows l orig -> Forall (made_of l orig) cs -> nth_error (orig ++ cs) i = Some t -> flag t = true ->
  exists a, nth_error l i = Some a /\ follows a t /\ nth_error orig i = Some t /\ (i < length orig)%nat.
Proof.
  intros F Mc E Fl. destruct (Nat.lt_ge_cases i (length orig)) as [L|L].
  - rewrite nth_error_app1 in E by exact L. destruct (f2_nth _ _ _ F i t E) as (a & A1 & A2). exists a. auto.
  - exfalso. rewrite nth_error_app2 in E by exact L. apply nth_error_In in E. rewrite Forall_forall in Mc. destruct (Mc t E) as (? & ? & ? & ? & ? & ? & ? & ? & ? & ? & _ & _ & _ & _ & _ & _ & _ & _ & _ & _ & _ & _ & _ & K). unfold flag in Fl. rewrite K in Fl. discriminate.
Qed.
Lemma stepu_step l l' : Forall2 (stepu dr) l l' -> Forall2 step l l'.
Proof. intros F. induction F as [|t t' l l' [S _] F IH]; constructor; assumption. Qed.
Lemma settle_step l l' : Forall2 (fun t t' => stepu dr t t' /\ settled t t') l l' -> Forall2 step l l' /\ vals k_uid l' = vals k_uid l /\ Forall2 settled l l'.
Proof.
  intros F. induction F as [|t t' l l' [[S U] T] F [IH1 [IH2 IH3]]]; [split; [constructor|split; [reflexivity|constructor]]|]. split; [constructor; assumption|]. split; [cbn [vals flat_map]; rewrite U; f_equal; exact IH2|constructor; assumption].
Qed.
Lemma eye_from a t m p : follows a t -> marked t = Some m -> ((m = 2 /\ p = 0) \/ (m = 1 /\ p = 1)) -> eye a p.
Proof.
  intros [_ _ _ Mo] M P. unfold eye. destruct Mo as [K|[(x & K1 & K2 & K3 & K4)|[K1 K2]]].
  - rewrite M in K. destruct P as [[-> ->]|[-> ->]]; [left|right]; split; auto.
  - rewrite M in K4. injection K4 as ->. lia.
  - rewrite M in K2. injection K2 as ->. destruct P as [[K _]|[_ ->]]; [lia|]. right. auto.
Qed.
(** A pair found: what the next pass begins with. *)
Lemma pair_inv l r1 t a o b r1' t' m M : inv l (r1 ++ t :: a ++ o :: b) -> Forall2 (stepu dr) r1 r1' -> step t t' -> k_uid t' = k_uid t -> marked t = Some m -> marked t' = Some 0 -> mode_of t' = Some 0 ->
  ((m = 2 /\ mode_of o = Some 1) \/ (m = 1 /\ mode_of o = Some 2)) ->
  (forall x y, In x (r1 ++ t :: a ++ o :: b) -> k_num x = Some y -> y <= M) -> M + 1 < 2 ^ 31 -> 2 * zlen (r1 ++ t :: a ++ o :: b) + 4 < 2 ^ 31 ->
  (combine m r1' t' a o b = Null /\ exists x, In x l /\ k_uid x = None /\ flag x = true) \/
  (exists new, combine m r1' t' a o b = Ok new /\ inv l new /\ (flags new + 2 <= flags (r1 ++ t :: a ++ o :: b))%nat /\ zlen new = zlen (r1 ++ t :: a ++ o :: b) + 1 /\
     (forall x y, In x new -> k_num x = Some y -> y <= M + 1)).
Proof.
  intros [(orig & cs & Ec & Fo & Mc) So Nn Nu] Fr St Ut Mt Mt' Md Mo Max B L. set (cur := r1 ++ t :: a ++ o :: b) in *.
  pose proof So as So'. unfold cur in So'. apply Forall_app in So'. destruct So' as [_ So']. apply Forall_cons_iff in So'. destruct So' as [_ So']. apply Forall_app in So'. destruct So' as [Sa So']. apply Forall_cons_iff in So'. destruct So' as [Sob Sb].
  assert (Ft : flag t = true) by (unfold flag; rewrite Mt; destruct Mo as [[-> _]|[-> _]]; reflexivity).
  assert (Mko : exists x, marked o = Some x /\ ((m = 2 /\ x = 1) \/ (m = 1 /\ x = 2))) by (rewrite marked_mode; destruct Mo as [[-> ->]|[-> ->]]; [exists 1|exists 2]; split; [reflexivity|auto|reflexivity|auto]).
  destruct Mko as (mo & Mko & Pm). assert (Fob : flag o = true) by (unfold flag; rewrite Mko; destruct Pm as [[_ ->]|[_ ->]]; reflexivity).
  assert (Ni : nth_error cur (length r1) = Some t) by (unfold cur; rewrite nth_error_app2 by lia; rewrite Nat.sub_diag; reflexivity).
  assert (Nj : nth_error cur (length (r1 ++ t :: a)) = Some o).
  { unfold cur. replace (r1 ++ t :: a ++ o :: b) with ((r1 ++ t :: a) ++ o :: b) by (rewrite <- app_assoc; reflexivity). rewrite nth_error_app2 by lia. rewrite Nat.sub_diag. reflexivity. }
  pose proof Ni as Li. rewrite Ec in Li. pose proof Nj as Lj. rewrite Ec in Lj. destruct (locate l orig cs _ t Fo Mc Li Ft) as (x & X1 & X2 & X3 & X4). destruct (locate l orig cs _ o Fo Mc Lj Fob) as (y & Y1 & Y2 & Y3 & Y4).
  assert (F0 : Forall2 step cur (r1' ++ t' :: a ++ o :: b)).
  { unfold cur. apply Forall2_app; [exact (stepu_step _ _ Fr)|]. constructor; [exact St|]. apply Forall2_app; [exact (steps_refl a Sa)|]. constructor; [exact (step_refl o Sob)|exact (steps_refl b Sb)]. }
  assert (Vu : vals k_uid (r1' ++ t' :: a ++ o :: b) = vals k_uid cur).
  { unfold cur. rewrite !(vals_app k_uid). cbn [vals flat_map]. rewrite Ut. f_equal. exact (uid_steps _ _ Fr). }
  assert (Vn : vals k_num (r1' ++ t' :: a ++ o :: b) = vals k_num cur) by exact (steps_num _ _ F0).
  assert (Ln : zlen (r1' ++ t' :: a ++ o :: b) = zlen cur) by (unfold zlen; f_equal; symmetry; exact (f2_len _ _ _ F0)).
  destruct (combine_ok m r1' t' a o b M) as [[U E]|(u & o' & c & U & E & So' & Mo' & Sc & (w & p & q & C1 & C2 & C3) & C4 & C5 & C6 & (n & C7 & C8 & C9) & C10)].
  - exact (proj2 St).
  - exact Sob.
  - exact Md.
  - exact Mo.
  - intros z v I Ev. assert (K : In v (vals k_num cur)) by (rewrite <- Vn; apply vals_in; exists z; auto). apply vals_in in K. destruct K as (z' & I' & E'). exact (Max z' v I' E').
  - exact B.
  - rewrite Ln. exact L.
  - left. split; [exact E|]. exists x. split; [exact (nth_error_In _ _ X1)|]. split; [destruct (fo_uid _ _ X2) as [K|[K _]]; congruence|]. destruct (flag x) eqn:Fx; [reflexivity|]. rewrite (flag_follows _ _ X2 Fx) in Ft. discriminate.
  - right. eexists. split; [exact E|]. set (nxt := r1' ++ t' :: a ++ o' :: b) in *.
    assert (F1 : Forall2 step cur nxt).
    { unfold cur, nxt. apply Forall2_app; [exact (stepu_step _ _ Fr)|]. constructor; [exact St|]. apply Forall2_app; [exact (steps_refl a Sa)|]. constructor; [exact So'|exact (steps_refl b Sb)]. }
    pose proof F1 as F2. rewrite Ec in F2. apply f2_split in F2. destruct F2 as (orig' & cs' & En & Fo' & Fc').
    assert (Lr : length r1' = length r1) by (symmetry; exact (f2_len _ _ _ Fr)).
    assert (Lo : length orig' = length orig) by (symmetry; exact (f2_len _ _ _ Fo')).
    assert (Ti : nth_error orig' (length r1) = Some t').
    { assert (K : nth_error nxt (length r1) = Some t') by (unfold nxt; rewrite <- Lr, nth_error_app2 by lia; rewrite Nat.sub_diag; reflexivity). rewrite En, nth_error_app1 in K by lia. exact K. }
    assert (Tj : nth_error orig' (length (r1 ++ t :: a)) = Some o').
    { assert (K : nth_error nxt (length (r1 ++ t :: a)) = Some o').
      { unfold nxt. replace (r1' ++ t' :: a ++ o' :: b) with ((r1' ++ t' :: a) ++ o' :: b) by (rewrite <- app_assoc; reflexivity). replace (length (r1 ++ t :: a)) with (length (r1' ++ t' :: a)) by (rewrite !app_length; cbn [length]; lia). rewrite nth_error_app2 by lia. rewrite Nat.sub_diag. reflexivity. }
      rewrite En, nth_error_app1 in K by lia. exact K. }
    split; [|split; [|split]].
    + constructor.
      * exists orig', (cs' ++ [c]). split; [rewrite En, app_assoc; reflexivity|]. split; [exact (follows_all l orig orig' Fo Fo')|]. apply Forall_app. split; [exact (made_all l orig orig' cs cs' Fo' Fc' Mc)|]. constructor; [|constructor].
        exists (length r1), (length (r1 ++ t :: a)), x, y, t', o', u, w, p, q. split; [rewrite app_length; cbn [length]; lia|]. split; [exact X1|]. split; [exact Y1|]. split; [exact Ti|]. split; [exact Tj|]. split; [exact U|]. split; [exact C1|].
        split; [apply (eye_from x t m p X2 Mt); destruct C3 as [(? & ? & ?)|(? & ? & ?)]; auto|]. split; [apply (eye_from y o mo q Y2 Mko); destruct C3 as [(? & ? & ?)|(? & ? & ?)]; lia|]. split; [lia|].
        destruct St as [St _]. destruct (fo_same _ _ St) as (K1 & K2 & K3 & K4). destruct (fo_same _ _ X2) as (J1 & J2 & J3 & J4). split; [congruence|]. split; [congruence|]. split; [exact C5|exact C6].
      * apply Forall_app. split; [exact (steps_sound _ _ F1)|constructor; [exact Sc|constructor]].
      * intros K. rewrite (vals_app k_num), (steps_num _ _ F1). cbn [vals flat_map]. rewrite C7. cbn [app]. change (flat_map (fun t0 => match k_num t0 with Some u1 => [u1] | None => [] end) cur) with (vals k_num cur). apply NoDup_Add with (a := n) (l := vals k_num cur); [rewrite <- (app_nil_r (vals k_num cur)) at 1; apply Add_app|]. split; [exact (Nn K)|]. rewrite <- Vn. exact C9.
      * intros K. apply C10. rewrite Vu. exact (Nu K).
    + assert (Z1 : flag t' = false) by (unfold flag; rewrite Mt'; reflexivity). assert (Z2 : flag o' = false) by (unfold flag; rewrite Mo'; reflexivity). assert (Z3 : flag c = false) by (unfold flag; rewrite C6; reflexivity).
      unfold nxt, cur. rewrite !flags_app, !flags_cons, !flags_app, !flags_cons, Z1, Z2, Z3, Ft, Fob. pose proof (flags_steps _ _ (stepu_step _ _ Fr)) as K. change (flags []) with O. lia.
    + unfold zlen. rewrite app_length. cbn [length]. pose proof (f2_len _ _ _ F1) as K. lia.
    + intros z v I Ev. apply in_app_or in I. destruct I as [I|[<-|[]]]; [|rewrite C7 in Ev; injection Ev as <-; exact C8].
      assert (K : In v (vals k_num cur)) by (rewrite <- (steps_num _ _ F1); apply vals_in; exists z; auto). apply vals_in in K. destruct K as (z' & I' & E'). pose proof (Max z' v I' E'). lia.
Qed.

Lemma loop src l : old_profile src = true -> forall fuel cur prof M, inv l cur -> prof <> PROFILE_WEBM -> (flags cur < fuel)%nat ->
  (forall x y, In x cur -> k_num x = Some y -> y <= M) -> M + Z.of_nat (flags cur) < 2 ^ 31 -> 2 * (zlen cur + Z.of_nat (flags cur)) + 4 < 2 ^ 31 ->
  (clean_tracks feq attached dr fuel src prof cur = Null /\ exists x, In x l /\ k_uid x = None /\ flag x = true) \/
  (exists prof' out orig cs, clean_tracks feq attached dr fuel src prof cur = Ok (match out with [] => -19 | _ => 0 end, prof', out) /\ inv l out /\
     ((prof' = PROFILE_V3 /\ Exists (fun t => ~ unmarked t) cur) \/ (prof' = prof /\ Forall unmarked cur)) /\
     out = orig ++ cs /\ Forall2 follows l orig /\ Forall2 settled l orig /\ Forall (made_of l orig) cs /\ Forall unmarked cs).
Proof.
  intros Src. induction fuel as [|fuel IH]; intros cur prof M I Pf Fu Max B L; [lia|]. cbn [clean_tracks].
  pose proof I as [(orig & cs & Ec & Fo & Mc) So Nn Nu].
  destruct (walk_old feq attached dr src cur Src prof [] Pf So) as [(prof' & out & E & Pr & F)|(r1 & t & a & o & b & r1' & t' & m & Q1 & Q2 & Q3 & Q4 & Q5 & Q6 & Q7 & Q8 & Q9)].
  - right. cbn [app] in E. rewrite E. cbn [bind]. destruct (settle_step _ _ F) as (F1 & Vu & Fs). pose proof F1 as F2. rewrite Ec in F2. apply f2_split in F2. destruct F2 as (orig' & cs' & En & Fo' & Fc').
    assert (Fs' : Forall2 settled (orig ++ cs) (orig' ++ cs')) by (rewrite <- En, <- Ec; exact Fs).
    assert (Split : Forall2 settled orig orig' /\ Forall2 settled cs cs').
    { apply f2_split in Fs'. destruct Fs' as (a1 & b1 & E1 & G1 & G2). assert (La : length a1 = length orig') by (rewrite <- (f2_len _ _ _ G1); exact (f2_len _ _ _ Fo')).
      assert (K : a1 = orig' /\ b1 = cs'). { split; [apply (f_equal (firstn (length orig'))) in E1; rewrite firstn_app, Nat.sub_diag, firstn_all, firstn_O, app_nil_r in E1; rewrite <- La in E1 at 1; rewrite firstn_app, Nat.sub_diag, firstn_all, firstn_O, app_nil_r in E1; congruence|]. apply (f_equal (skipn (length orig'))) in E1. rewrite skipn_app, Nat.sub_diag, skipn_all in E1. rewrite <- La in E1 at 1. rewrite skipn_app, La, Nat.sub_diag, <- La, skipn_all in E1. cbn [skipn app] in E1. congruence. }
      destruct K as [<- <-]. auto. }
    destruct Split as [Fs1 Fs2].
    assert (I' : inv l out).
    { constructor.
      - exists orig', cs'. split; [exact En|]. split; [exact (follows_all l orig orig' Fo Fo')|exact (made_all l orig orig' cs cs' Fo' Fc' Mc)].
      - exact (steps_sound _ _ F1).
      - intros K. rewrite (steps_num _ _ F1). exact (Nn K).
      - intros K. rewrite Vu. exact (Nu K). }
    exists prof', out, orig', cs'. split; [reflexivity|]. split; [exact I'|]. split; [exact Pr|]. split; [exact En|]. split; [exact (follows_all l orig orig' Fo Fo')|]. split.
    + clear - Fo Fs1. revert orig' Fs1. induction Fo as [|x y l orig G Fo IH]; intros orig' Fs1; inversion Fs1; subst; constructor; [|apply IH; assumption].
      destruct H1 as [K|[K1 K2]]; [left; exact K|]. destruct G as [_ _ _ G]. destruct G as [G|[(z & _ & _ & _ & G)|[_ G]]]; [right; split; congruence|congruence|congruence].
    + split; [exact (made_all l orig orig' cs cs' Fo' Fc' Mc)|]. pose proof (made_all l orig orig' cs cs' Fo' Fc' Mc) as Mc'. rewrite Forall_forall in Mc' |- *. intros c Ic. destruct (Mc' c Ic) as (? & ? & ? & ? & ? & ? & ? & ? & ? & ? & _ & _ & _ & _ & _ & _ & _ & _ & _ & _ & _ & _ & _ & K). intros z Kz. rewrite K in Kz. injection Kz as <-. left. reflexivity.
  - cbn [app] in Q9. rewrite Q9. clear Nn Nu Fo Mc So Ec. subst cur.
    assert (Fl : (1 <= flags (r1 ++ t :: a ++ o :: b))%nat).
    { rewrite flags_app, flags_cons. assert (Ft : flag t = true) by (unfold flag; rewrite Q5; destruct Q8 as [[-> _]|[-> _]]; reflexivity). rewrite Ft. lia. }
    destruct (pair_inv l r1 t a o b r1' t' m M I Q2 Q3 Q4 Q5 Q6 Q7 Q8 Max) as [[E X]|(new & E & I' & Fn & Zn & Mx)]; [lia|lia| |].
    + left. rewrite E. split; [reflexivity|exact X].
    + rewrite E. cbn [bind]. destruct (IH new PROFILE_V3 (M + 1) I') as [X|(prof' & out & orig2 & cs2 & X1 & X2 & X3 & X4)]; [discriminate|lia|exact Mx|lia|lia|left; exact X|].
      right. exists prof', out, orig2, cs2. split; [exact X1|]. split; [exact X2|]. split; [|exact X4]. left. split; [destruct X3 as [[-> _]|[-> _]]; reflexivity|]. apply Exists_exists. exists t. split; [apply in_or_app; right; left; reflexivity|]. intros K. specialize (K m Q5). destruct Q8 as [[-> _]|[-> _]]; lia.
Qed.
Lemma inv_start l : Forall (sound dr) l -> inv l l.
Proof.
  intros S. constructor; [|exact S|auto|auto]. exists l, []. rewrite app_nil_r. split; [reflexivity|]. split; [|constructor]. clear S. induction l; constructor; [apply follows_refl|assumption].
Qed.
Lemma flags_len l : (flags l <= length l)%nat.
Proof. unfold flags. induction l as [|t l IH]; [constructor|]. cbn [filter]. destruct (flag t); cbn [length]; lia. Qed.
End Main.
