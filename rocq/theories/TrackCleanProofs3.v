From Verif Require Import Base BaseProofs Tree BlockTime BlockTimeProofs BlockProofs MkSchema TrackClean TrackCleanSpec TrackCleanProofs TrackCleanProofs2.

(** *** Sound tracks stay sound *)
Lemma displayed_again v v' w h : sane v w h -> ~ empty_display v -> displayed v v' w h -> sane v' w h /\ ~ empty_display v'.
Proof.
  intros (HW & HH & Sw & Sh & Sl & Sr & St & Sb) NE [_ Sh2 Un Si _ Mi Cr].
  assert (Size : 0 <= shown_w v w < 2 ^ 63 /\ 0 <= shown_h v h < 2 ^ 63) by (unfold shown_w, shown_h; destruct (d_dw v), (d_dh v); cbn in *; lia).
  assert (Pos : unit_of v = 0 -> 0 < shown_w v w /\ (shown_h v h = 0 -> d_dw v = None)).
  { intros U. unfold empty_display in NE. unfold shown_w, shown_h. destruct (d_dw v) as [x|]; destruct (d_dh v) as [y|]; cbn [small] in Sw, Sh.
    - split; [|intros ->; exfalso; apply NE; split; [exact U|right; split; [discriminate|reflexivity]]]. destruct (Z.eq_dec x 0) as [->|]; [|lia]. exfalso. apply NE. split; [exact U|left; reflexivity].
    - split; [|lia]. destruct (Z.eq_dec x 0) as [->|]; [|lia]. exfalso. apply NE. split; [exact U|left; reflexivity].
    - split; [lia|reflexivity].
    - split; [lia|reflexivity]. }
  assert (Ratio : unit_of v = 0 -> taken_for_ratio w h (shown_w v w) (shown_h v h) -> 0 < shown_h v h).
  { intros U (T1 & _ & _). destruct (Pos U) as [P1 P2]. destruct (Z.eq_dec (shown_h v h) 0) as [E|]; [|lia]. specialize (P2 E). unfold shown_w in T1. rewrite P2 in T1. lia. }
  unfold same_shape in Sh2.
  assert (Size' : 0 <= shown_w v' w < 2 ^ 63 /\ 0 <= shown_h v' h < 2 ^ 63 /\ (unit_of v = 0 -> 0 < shown_w v' w /\ (shown_h v' h = 0 -> shown_w v' w = w))).
  { destruct Si as [[E1 E2]|(U & U' & T & Q)].
    - rewrite E1, E2. split; [lia|]. split; [lia|]. intros U. destruct (Pos U) as [P1 P2]. split; [exact P1|]. intros K. unfold shown_w. rewrite (P2 K). reflexivity.
    - pose proof (Ratio U T) as R. destruct (Pos U) as [P1 _]. destruct T as (T1 & T2 & _). set (a := shown_w v w) in *. set (b := shown_h v h) in *. set (a' := shown_w v' w) in *. set (b' := shown_h v' h) in *. clearbody a b a' b'. clear - HW HH T1 T2 R P1 Q Sh2.
      destruct Q as [-> | ->].
      + assert (0 < b') by nia. assert (b' < 2 ^ 63) by (assert (b' <= w * b) by nia; nia). split; [lia|]. split; [lia|]. intros _. split; [lia|]. intros; lia.
      + assert (0 < a') by nia. assert (a' < 2 ^ 63) by (assert (a' <= h * a) by nia; nia). split; [lia|]. split; [lia|]. intros _. split; [lia|]. intros; lia. }
  destruct Size' as (Z1 & Z2 & Z3).
  split.
  - split; [exact HW|]. split; [exact HH|]. split; [unfold shown_w in Z1; destruct (d_dw v'); [exact Z1|exact I]|]. split; [unfold shown_h in Z2; destruct (d_dh v'); [exact Z2|exact I]|].
    assert (K : forall o o' b, kept_crop o o' -> small o b -> small o' b) by (intros o o' b -> K; destruct o as [[|?|?]|]; cbn in *; auto).
    destruct Cr as [(_ & -> & -> & -> & ->)|[(_ & _ & _ & -> & -> & -> & ->)|[(_ & _ & _ & -> & -> & -> & ->)|(_ & _ & Cr)]]]; [auto|cbn; auto|auto|].
    destruct Cr as [(_ & _ & C1 & C2 & C3 & C4)|(_ & -> & -> & -> & ->)]; [|cbn; auto]. split; [exact (K _ _ _ C1 Sl)|]. split; [exact (K _ _ _ C2 Sr)|]. split; [exact (K _ _ _ C3 St)|exact (K _ _ _ C4 Sb)].
  - intros [U G]. assert (U0 : unit_of v = 0 \/ (unit_of v = 3 /\ shown_w v w = w /\ shown_h v h = h)) by (destruct Un as [E|[(E & _ & E2 & E3)|(_ & E & _)]]; [left; lia|right; auto|lia]).
    destruct U0 as [U0|(U3 & E1 & E2)].
    + destruct (Z3 U0) as [P1 P2]. destruct Mi as [[N1 N2]|[K|[M1 M2]]]; [|lia|].
      * destruct Si as [[E1 E2]|(_ & _ & (T1 & _) & _)]; [|unfold shown_w in T1; rewrite N1 in T1; lia]. unfold shown_h in E2. unfold shown_w in E1. rewrite N1 in E1. rewrite N2 in E2. destruct G as [G|[_ G]]; rewrite G in *; lia.
      * destruct G as [G|[G1 G2]]; [unfold shown_w in P1; rewrite G in P1; lia|]. unfold shown_h in P2. rewrite G2 in P2. specialize (P2 eq_refl). unfold shown_w in P2. destruct (d_dw v') as [x|]; [apply M1; f_equal; exact P2|apply G1; reflexivity].
    + destruct Si as [[F1 F2]|(K & _)]; [|lia]. destruct G as [G|[_ G]]; [unfold shown_w at 1 in F1; rewrite G in F1; lia|unfold shown_h at 1 in F2; rewrite G in F2; lia].
Qed.

Definition vid_ok (v : video) : Prop := exists w h, d_pw v = Some w /\ d_ph v = Some h /\ sane v w h /\ ~ empty_display v.
Lemma sound_intro dr t n ty : k_num t = Some n -> 1 <= n < 2 ^ 31 -> k_type t = Some ty -> 0 <= ty < 2 ^ 31 -> (k_codec t <> None \/ k_ops t <> []) ->
  (forall v, k_video t = Some v -> vid_ok v) -> (forall r o, k_audio t = Some (r, o) -> ~ zero_float (match r with Some x => x | None => dr end)) -> sound dr t.
Proof.
  intros En Hn Et Hty C V A. split; constructor.
  - intros n' K. rewrite En in K. injection K as <-. exact Hn.
  - intros n' K. rewrite Et in K. injection K as <-. exact Hty.
  - intros v Ev. destruct (V v Ev) as (w & h & E1 & E2 & S & _). exists w, h. destruct S as (S1 & S2 & S3). split; [exact E1|]. split; [exact E2|]. split; [lia|]. split; [lia|]. intros _ _. exact (conj S1 (conj S2 S3)).
  - exact A.
  - discriminate.
  - congruence.
  - exact C.
  - congruence.
  - intros v Ev. destruct (V v Ev) as (w & h & E1 & E2 & S & N). destruct S as (S1 & S2 & _). rewrite E1, E2. split; [intros [= ->]; lia|]. split; [intros [= ->]; lia|exact N].
  - discriminate.
Qed.
Lemma sound_elim dr t : sound dr t -> exists n ty, k_num t = Some n /\ 1 <= n < 2 ^ 31 /\ k_type t = Some ty /\ 0 <= ty < 2 ^ 31 /\ (k_codec t <> None \/ k_ops t <> []) /\
  (forall v, k_video t = Some v -> vid_ok v) /\ (forall r o, k_audio t = Some (r, o) -> ~ zero_float (match r with Some x => x | None => dr end)).
Proof.
  intros [P S]. destruct (k_num t) as [n|] eqn:En; [|exfalso; exact (st_num _ _ S En)]. destruct (k_type t) as [ty|] eqn:Et; [|exfalso; exact (st_type _ _ S Et)]. exists n, ty. split; [reflexivity|]. split; [exact (pl_num _ _ _ P n En)|]. split; [reflexivity|]. split; [exact (pl_type _ _ _ P ty Et)|].
  split; [exact (st_codec _ _ S)|]. split; [|exact (pl_audio _ _ _ P)]. intros v Ev. destruct (pl_video _ _ _ P v Ev) as (w & h & E1 & E2 & H1 & H2 & K). destruct (st_video _ _ S v Ev) as (N1 & N2 & N3). rewrite E1 in N1. rewrite E2 in N2. exists w, h. split; [exact E1|]. split; [exact E2|]. split; [|exact N3]. apply K; [destruct (Z.eq_dec w 0) as [->|]; [congruence|lia]|destruct (Z.eq_dec h 0) as [->|]; [congruence|lia]].
Qed.

Lemma marked_mode t : marked t = match mode_of t with Some x => Some (s32 x) | None => None end.
Proof. unfold marked, mode_of. destruct (k_video t) as [v|]; [|reflexivity]. destruct (d_stereo v); [reflexivity|]. destruct (d_old v); reflexivity. Qed.
Lemma follows_refl t : follows t t.
Proof. constructor; [auto|left; reflexivity| |left; reflexivity]. destruct (k_video t); auto. Qed.
Lemma follows_trans a b c : follows a b -> follows b c -> follows a c.
Proof.
  intros [(A1 & A2 & A3 & A4) A5 A6 A7] [(B1 & B2 & B3 & B4) B5 B6 B7]. constructor.
  - split; [congruence|]. split; [congruence|]. split; congruence.
  - destruct A5 as [A5|[A5 A5']]; destruct B5 as [B5|[B5 B5']]; [left; congruence|right; split; congruence|right; split; congruence|congruence].
  - destruct (k_video a), (k_video b), (k_video c); try tauto. destruct A6, B6. split; congruence.
  - destruct A7 as [A7|[(x & X1 & X2 & X3 & X4)|[X1 X2]]]; destruct B7 as [B7|[(y & Y1 & Y2 & Y3 & Y4)|[Y1 Y2]]].
    + left. congruence.
    + right. left. exists y. split; [congruence|auto].
    + right. right. split; congruence.
    + right. left. exists x. split; [exact X1|]. split; [exact X2|]. split; [exact X3|congruence].
    + congruence.
    + congruence.
    + right. right. split; [exact X1|congruence].
    + right. left. exists 3. split; [exact X1|]. split; [lia|]. split; [lia|exact Y4].
    + congruence.
Qed.

(** The first half keeps a sound track. *)
Lemma first_sound dr t : sound dr t -> exists v', first_half t = Ok (Some (with_video t v')) /\ sound dr (with_video t v') /\ mode_of (with_video t v') = mode_of t /\ follows t (with_video t v').
Proof.
  intros S. pose proof S as [P St]. destruct (sound_elim dr t S) as (n & ty & En & Hn & Et & Hty & C & V & A).
  destruct (first_ok dr PROFILE_V3 t P) as [[_ K]|(v' & E & _ & _ & _ & N & D)]; [contradiction|]. exists v'. split; [exact E|].
  assert (M : mode_of (with_video t v') = mode_of t).
  { unfold mode_of. cbn [k_video with_video]. destruct (k_video t) as [v|], v' as [v'|]; try contradiction; [|reflexivity]. destruct D as (w & h & _ & _ & _ & [(_ & _ & D1 & D2) _ _ _ _ _ _]). rewrite D1, D2. reflexivity. }
  split.
  - apply (sound_intro dr _ n ty); try assumption. intros v0 Ev0. cbn [k_video with_video] in Ev0. subst v'. destruct (k_video t) as [v|] eqn:Ev; [|contradiction]. destruct D as (w & h & D1 & D2 & D3 & D4). destruct (N v eq_refl) as (_ & _ & N3). destruct (displayed_again v v0 w h D3 N3 D4) as [Q1 Q2]. destruct D4 as [(R1 & R2 & _) _ _ _ _ _ _]. exists w, h. split; [congruence|]. split; [congruence|]. auto.
  - split; [exact M|]. constructor; [cbn; auto|left; reflexivity| |left; rewrite !marked_mode, M; reflexivity].
    cbn [k_video with_video]. destruct (k_video t) as [v|], v' as [v'|]; try contradiction; [|exact I]. destruct D as (w & h & _ & _ & _ & [(R1 & R2 & _) _ _ _ _ _ _]). auto.
Qed.
Lemma set_mode_ok dr t x : sound dr t -> mode_of t <> None -> sound dr (set_mode t x) /\ mode_of (set_mode t x) = Some x /\ k_uid (set_mode t x) = k_uid t /\
  (k_num (set_mode t x) = k_num t /\ k_type (set_mode t x) = k_type t /\ k_codec (set_mode t x) = k_codec t /\ k_ops (set_mode t x) = k_ops t) /\
  match k_video t, k_video (set_mode t x) with None, None => True | Some v, Some v' => d_pw v' = d_pw v /\ d_ph v' = d_ph v | _, _ => False end.
Proof.
  intros S Mo. destruct (sound_elim dr t S) as (n & ty & En & Hn & Et & Hty & C & V & A). unfold set_mode, mode_of in *. destruct (k_video t) as [v|] eqn:Ev; [|congruence].
  split.
  - apply (sound_intro dr _ n ty); try assumption. cbn [k_video with_video]. intros v0 [= <-]. destruct (V v eq_refl) as (w & h & E1 & E2 & Q1 & Q2). exists w, h. destruct (d_stereo v); (split; [exact E1|]; split; [exact E2|]; split; [exact Q1|exact Q2]).
  - cbn [k_video with_video]. destruct (d_stereo v); cbn [set_stereo d_stereo d_pw d_ph]; auto 10.
Qed.
Lemma set_other_ok dr t x : sound dr t -> mode_of t <> None -> sound dr (set_other_mode t x) /\ mode_of (set_other_mode t x) = Some x /\ k_uid (set_other_mode t x) = k_uid t /\
  (k_num (set_other_mode t x) = k_num t /\ k_type (set_other_mode t x) = k_type t /\ k_codec (set_other_mode t x) = k_codec t /\ k_ops (set_other_mode t x) = k_ops t) /\
  match k_video t, k_video (set_other_mode t x) with None, None => True | Some v, Some v' => d_pw v' = d_pw v /\ d_ph v' = d_ph v | _, _ => False end.
Proof.
  intros S Mo. destruct (sound_elim dr t S) as (n & ty & En & Hn & Et & Hty & C & V & A). unfold set_other_mode, mode_of in *. destruct (k_video t) as [v|] eqn:Ev; [|congruence].
  split.
  - apply (sound_intro dr _ n ty); try assumption. cbn [k_video with_video]. intros v0 [= <-]. destruct (V v eq_refl) as (w & h & E1 & E2 & Q1 & Q2). exists w, h. destruct (d_stereo v); (split; [exact E1|]; split; [exact E2|]; split; [exact Q1|exact Q2]).
  - cbn [k_video with_video]. destruct (d_stereo v); cbn [set_stereo d_stereo d_old d_pw d_ph]; auto 10.
Qed.
Lemma s32_0 : s32 0 = 0. Proof. reflexivity. Qed.
Lemma set_mode_follows dr t x : sound dr t -> mode_of t <> None -> (exists y, marked t = Some y /\ y <> 0 /\ y <= 3 /\ (x = 0 \/ (y = 3 /\ x = 1))) -> follows t (set_mode t x) /\ marked (set_mode t x) = Some x.
Proof.
  intros S Mo (y & M & N0 & N3 & X). destruct (set_mode_ok dr t x S Mo) as (_ & E1 & E2 & E3 & E4).
  assert (Mk : marked (set_mode t x) = Some x) by (rewrite marked_mode, E1; destruct X as [->|[_ ->]]; reflexivity).
  split; [|exact Mk]. constructor; [exact E3|left; exact E2|exact E4|]. rewrite Mk. destruct X as [->|[-> ->]]; [right; left; exists y; auto|right; right; auto].
Qed.

Section Stereo.
Context (feq : Z -> Z -> bool) (attached : option (list Z)) (dr : Z).
Lemma second_sound prof t : prof <> PROFILE_WEBM -> sound dr t -> exists t', second_half feq attached dr prof t = Ok (Some t') /\ sound dr t' /\ mode_of t' = mode_of t /\ k_uid t' = k_uid t /\ follows t t'.
Proof.
  intros Pf S. destruct (sound_elim dr t S) as (n & ty & En & Hn & Et & Hty & C & V & A).
  destruct (second_ok feq attached dr prof t n ty En Hn Et Hty A ltac:(congruence)) as [(_ & K & _)|(a & E & Oa & _)]; [contradiction|]. eexists. split; [exact E|]. split.
  - apply (sound_intro dr _ n ty); try assumption. cbn [k_audio with_links with_audio]. intros r o ->. unfold audio_ok in Oa. destruct (k_audio t) as [[r0 o0]|]; [|contradiction]. destruct Oa as [-> _]. exact (A r0 o0 eq_refl).
  - split; [reflexivity|]. split; [reflexivity|]. constructor; [cbn; auto|left; reflexivity| |left; reflexivity]. cbn [k_video with_links with_audio]. destruct (k_video t); auto.
Qed.

Definition step (t t' : ctrack) : Prop := follows t t' /\ sound dr t'.
Definition stepu (t t' : ctrack) : Prop := step t t' /\ k_uid t' = k_uid t.
Definition unmarked (t : ctrack) : Prop := forall x, marked t = Some x -> x = 0 \/ 3 < x.
Definition settled (t t' : ctrack) : Prop := unmarked t' \/ (marked t = Some 3 /\ marked t' = Some 1).

Lemma find_spec m l a o b : find_other m l = Some (a, o, b) -> l = a ++ o :: b /\ ((m = 2 /\ mode_of o = Some 1) \/ (m = 1 /\ mode_of o = Some 2)).
Proof.
  revert a. induction l as [|t l IH]; intros a H; [discriminate|]. cbn [find_other] in H. destruct (match mode_of t with Some x => (m =? 2) && (x =? 1) || (m =? 1) && (x =? 2) | None => false end) eqn:Q.
  - injection H as <- <- <-. split; [reflexivity|]. destruct (mode_of t) as [x|]; [|discriminate]. rewrite orb_true_iff, !andb_true_iff, !Z.eqb_eq in Q. destruct Q as [[-> ->]|[-> ->]]; auto.
  - destruct (find_other m l) as [[[a' o'] b']|] eqn:E; [|discriminate]. injection H as <- <- <-. destruct (IH a' eq_refl) as [-> M]. split; [reflexivity|exact M].
Qed.

(** One pass over the tracks of an older file. *)
Lemma walk_old src rest : old_profile src = true -> forall prof done, prof <> PROFILE_WEBM -> Forall (sound dr) rest ->
  (exists prof' rest', walk feq attached dr src prof done rest = Ok (Through prof' (done ++ rest')) /\
     ((prof' = PROFILE_V3 /\ Exists (fun t => ~ unmarked t) rest) \/ (prof' = prof /\ Forall unmarked rest)) /\
     Forall2 (fun t t' => stepu t t' /\ settled t t') rest rest') \/
  (exists r1 t a o b r1' t' m, rest = r1 ++ t :: a ++ o :: b /\ Forall2 stepu r1 r1' /\ step t t' /\ k_uid t' = k_uid t /\ marked t = Some m /\ marked t' = Some 0 /\ mode_of t' = Some 0 /\
     ((m = 2 /\ mode_of o = Some 1) \/ (m = 1 /\ mode_of o = Some 2)) /\
     walk feq attached dr src prof done rest = (do l <- combine m (done ++ r1') t' a o b; Ok (Again PROFILE_V3 l))).
Proof.
  intros Src. induction rest as [|t rest IH]; intros prof done Pf F.
  { left. exists prof, []. rewrite app_nil_r. split; [reflexivity|]. split; [right; split; [reflexivity|constructor]|constructor]. }
  apply Forall_cons_iff in F. destruct F as [St F]. cbn [walk].
  destruct (first_sound dr t St) as (v1 & E1 & S1 & M1 & F1). rewrite E1. cbn [bind]. rewrite Src. set (t1 := with_video t v1) in *.
  assert (Uid1 : k_uid t1 = k_uid t) by reflexivity. clearbody t1.
  (* going on with a track [tx] *)
  assert (Go : forall p tx, p <> PROFILE_WEBM -> sound dr tx -> k_uid tx = k_uid t -> follows t tx -> (unmarked tx \/ (marked t = Some 3 /\ marked tx = Some 1)) ->
    ((p = PROFILE_V3 /\ ~ unmarked t) \/ (p = prof /\ unmarked t)) ->
    (exists prof' rest', (do r <- second_half feq attached dr p tx; walk feq attached dr src p (match r with None => done | Some t => done ++ [t] end) rest) = Ok (Through prof' (done ++ rest')) /\
     ((prof' = PROFILE_V3 /\ Exists (fun t => ~ unmarked t) (t :: rest)) \/ (prof' = prof /\ Forall unmarked (t :: rest))) /\
     Forall2 (fun t t' => stepu t t' /\ settled t t') (t :: rest) rest') \/
    (exists r1 t0 a o b r1' t' m, t :: rest = r1 ++ t0 :: a ++ o :: b /\ Forall2 stepu r1 r1' /\ step t0 t' /\ k_uid t' = k_uid t0 /\ marked t0 = Some m /\ marked t' = Some 0 /\ mode_of t' = Some 0 /\
     ((m = 2 /\ mode_of o = Some 1) \/ (m = 1 /\ mode_of o = Some 2)) /\
     (do r <- second_half feq attached dr p tx; walk feq attached dr src p (match r with None => done | Some t => done ++ [t] end) rest) = (do l <- combine m (done ++ r1') t' a o b; Ok (Again PROFILE_V3 l)))).
  { intros p tx Hp Sx Ux Fx Un Pr. destruct (second_sound p tx Hp Sx) as (t2 & E2 & S2 & M2 & U2 & F2). rewrite E2. cbn [bind].
    assert (Stp : stepu t t2) by (split; [split; [exact (follows_trans _ _ _ Fx F2)|exact S2]|congruence]).
    assert (Mk : marked t2 = marked tx) by (rewrite !marked_mode, M2; reflexivity).
    assert (Se : settled t t2) by (unfold settled, unmarked in *; rewrite Mk; exact Un).
    destruct (IH p (done ++ [t2]) Hp F) as [(prof' & rest' & E & Pr' & F')|(r1 & t0 & a & o & b & r1' & t' & m & Q1 & Q2 & Q3 & Q4 & Q5 & Q6 & Q7 & Q8 & Q9)].
    - left. exists prof', (t2 :: rest'). split; [rewrite E, <- app_assoc; reflexivity|]. split; [|constructor; [split; assumption|exact F']].
      destruct Pr' as [[-> Ex]|[-> Fo]]; [left; split; [reflexivity|apply Exists_cons_tl; exact Ex]|]. destruct Pr as [[-> N]|[-> U]]; [left; split; [reflexivity|apply Exists_cons_hd; exact N]|right; split; [reflexivity|constructor; assumption]].
    - right. exists (t :: r1), t0, a, o, b, (t2 :: r1'), t', m. split; [rewrite Q1; reflexivity|]. split; [constructor; assumption|]. split; [exact Q3|]. split; [exact Q4|]. split; [exact Q5|]. split; [exact Q6|]. split; [exact Q7|]. split; [exact Q8|]. rewrite Q9, <- app_assoc. reflexivity. }
  destruct (mode_of t1) as [x|] eqn:Mx.
  - assert (Mt : marked t = Some (s32 x)) by (rewrite marked_mode, <- M1; reflexivity). assert (Mt1 : marked t1 = Some (s32 x)) by (rewrite marked_mode, Mx; reflexivity).
    destruct ((s32 x =? 0) || (3 <? s32 x)) eqn:Q0.
    + apply Go; [exact Pf|exact S1|exact Uid1|exact F1| |].
      * left. intros y K. rewrite Mt1 in K. injection K as <-. apply orb_true_iff in Q0. lia.
      * right. split; [reflexivity|]. intros y K. rewrite Mt in K. injection K as <-. apply orb_true_iff in Q0. lia.
    + apply orb_false_iff in Q0. destruct Q0 as [Q0 Q0']. assert (NU : ~ unmarked t) by (intros K; specialize (K _ Mt); lia).
      destruct (s32 x =? 3) eqn:Q3.
      * apply Z.eqb_eq in Q3. destruct (set_mode_ok dr t1 1 S1 ltac:(congruence)) as (T1 & T2 & T3 & _). destruct (set_mode_follows dr t1 1 S1 ltac:(congruence)) as [T4 T5]; [exists (s32 x); split; [exact Mt1|]; split; [lia|]; split; [lia|right; auto]|].
        apply Go; [discriminate|exact T1|congruence|exact (follows_trans _ _ _ F1 T4)| |left; split; [reflexivity|exact NU]]. right. split; [rewrite Mt; congruence|exact T5].
      * destruct (set_mode_ok dr t1 0 S1 ltac:(congruence)) as (T1 & T2 & T3 & _). destruct (set_mode_follows dr t1 0 S1 ltac:(congruence)) as [T4 T5]; [exists (s32 x); split; [exact Mt1|]; split; [lia|]; split; [lia|left; reflexivity]|].
        destruct (find_other (s32 x) rest) as [[[a o] b]|] eqn:Fo.
        -- right. apply find_spec in Fo. destruct Fo as [-> Fo]. exists [], t, a, o, b, [], (set_mode t1 0), (s32 x). rewrite app_nil_r. split; [reflexivity|]. split; [constructor|]. split; [split; [exact (follows_trans _ _ _ F1 T4)|exact T1]|]. split; [congruence|]. split; [exact Mt|]. split; [exact T5|]. split; [exact T2|]. split; [exact Fo|reflexivity].
        -- apply Go; [discriminate|exact T1|congruence|exact (follows_trans _ _ _ F1 T4)| |left; split; [reflexivity|exact NU]]. left. intros y K. rewrite T5 in K. injection K as <-. left. reflexivity.
  - apply Go; [exact Pf|exact S1|exact Uid1|exact F1| |].
    + left. intros y K. rewrite marked_mode, Mx in K. discriminate.
    + right. split; [reflexivity|]. intros y K. rewrite marked_mode, <- M1 in K. discriminate.
Qed.
End Stereo.
