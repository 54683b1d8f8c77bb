From Verif Require Import Base BaseProofs Tree BlockTime BlockTimeProofs BlockProofs MkSchema TrackClean TrackCleanSpec TrackCleanProofs.

Lemma s32_small x : 0 <= x < 2 ^ 31 -> s32 x = x.
Proof. intros H. unfold s32, s_wrap. replace (2 ^ (32 - 1)) with (2 ^ 31) by reflexivity. rewrite Z.mod_small by lia. lia. Qed.
Lemma up_lower x y : up x = up y <-> lower x = lower y.
Proof.
  unfold up, lower.
  destruct ((97 <=? x) && (x <=? 122)) eqn:A; destruct ((97 <=? y) && (y <=? 122)) eqn:B; destruct ((65 <=? x) && (x <=? 90)) eqn:C; destruct ((65 <=? y) && (y <=? 90)) eqn:D;
  rewrite ?andb_true_iff, ?andb_false_iff in *; lia.
Qed.
Lemma isame_ok a b : isame a b = true <-> same_letters a b.
Proof.
  unfold isame, same_letters. split.
  - intros H. apply list_eqb_eq in H. revert b H. induction a as [|x a IH]; intros [|y b] H; try discriminate; [constructor|]. cbn in H. injection H as H1 H2. constructor; [apply up_lower; exact H1|apply IH; exact H2].
  - intros H. assert (E : map up a = map up b) by (induction H; cbn; [reflexivity|f_equal; [apply up_lower; assumption|assumption]]). rewrite E. apply list_eqb_refl.
Qed.
Lemma webm_ok_iff ty c : webm_ok ty c = true <-> webm_codec ty c.
Proof.
  unfold webm_ok, webm_codec, TYPE_VIDEO, TYPE_AUDIO. rewrite !orb_true_iff, !andb_true_iff, !Z.eqb_eq, !isame_ok. unfold V_VP8, V_VP9, A_VORBIS, A_OPUS. tauto.
Qed.
Lemma is_zero_iff x : is_zero x = true <-> zero_float x.
Proof. unfold is_zero, zero_float. rewrite orb_true_iff, !Z.eqb_eq. tauto. Qed.

(** *** The first half *)
Lemma first_ok dr prof t : plain dr prof t ->
  (first_half t = Ok None /\ ~ stays prof t) \/
  (exists v', first_half t = Ok (Some (with_video t v')) /\
     k_num t <> None /\ (k_codec t <> None \/ k_ops t <> []) /\ k_type t <> None /\
     (forall v, k_video t = Some v -> d_pw v <> Some 0 /\ d_ph v <> Some 0 /\ ~ empty_display v) /\
     match k_video t, v' with
     | None, None => True
     | Some v, Some v' => exists w h, d_pw v = Some w /\ d_ph v = Some h /\ sane v w h /\ displayed v v' w h
     | _, _ => False
     end).
Proof.
  intros P. unfold first_half. destruct (k_num t) as [n|] eqn:En; [|left; split; [reflexivity|intros [K _ _ _ _]; congruence]].
  pose proof (pl_num _ _ _ P n En) as Hn.
  assert (C : (k_codec t = None /\ k_ops t = []) \/ ((k_codec t <> None \/ k_ops t <> []) /\ (forall (A : Type) (x y : A), match k_codec t with Some _ => y | None => match k_ops t with [] => x | _ => y end end = y))).
  { destruct (k_codec t); [right; split; [left; discriminate|reflexivity]|]. destruct (k_ops t); [left; split; reflexivity|right; split; [right; discriminate|reflexivity]]. }
  destruct C as [[C1 C2]|[C1 C2]]; [left; rewrite C1, C2; split; [reflexivity|intros [_ [K|K] _ _ _]; congruence]|].
  assert (E : match k_codec t, k_ops t with | None, [] => Ok None | _, _ =>
          match k_type t with
          | None => Ok None
          | Some ty =>
              if (s32 n =? 0) && negb (s32 ty =? TYPE_VIDEO) then Null
              else match k_video t with
                   | None => Ok (Some t)
                   | Some v =>
                       match d_pw v, d_ph v with
                       | Some w, Some h =>
                           if (s32 w =? 0) || (s32 h =? 0) then Ok None
                           else do r <- clean_display v (s32 w) (s32 h); Ok (match r with None => None | Some v' => Some (with_video t (Some v')) end)
                       | _, _ => Null
                       end
                   end
          end end = match k_type t with
          | None => Ok None
          | Some ty =>
              if (s32 n =? 0) && negb (s32 ty =? TYPE_VIDEO) then Null
              else match k_video t with
                   | None => Ok (Some t)
                   | Some v =>
                       match d_pw v, d_ph v with
                       | Some w, Some h =>
                           if (s32 w =? 0) || (s32 h =? 0) then Ok None
                           else do r <- clean_display v (s32 w) (s32 h); Ok (match r with None => None | Some v' => Some (with_video t (Some v')) end)
                       | _, _ => Null
                       end
                   end
          end) by (destruct (k_codec t), (k_ops t); try reflexivity; destruct C1; congruence).
  rewrite E. clear E C2. destruct (k_type t) as [ty|] eqn:Et; [|left; split; [reflexivity|intros [_ _ K _ _]; congruence]].
  rewrite (s32_small n) by lia. replace (n =? 0) with false by lia. cbn [andb].
  destruct (k_video t) as [v|] eqn:Ev.
  - destruct (pl_video _ _ _ P v Ev) as (w & h & Ew & Eh & Hw & Hh & S). rewrite Ew, Eh, !s32_small by lia. destruct ((w =? 0) || (h =? 0)) eqn:Q.
    + left. split; [reflexivity|]. intros [_ _ _ K _]. destruct (K v Ev) as (K1 & K2 & _). apply orb_true_iff in Q. rewrite !Z.eqb_eq in Q. destruct Q; subst; congruence.
    + apply orb_false_iff in Q. destruct Q as [Q1 Q2]. assert (Sv : sane v w h) by (apply S; lia). destruct (display_all v w h Sv) as [(E & G)|(G & v' & E & D)]; rewrite E; cbn [bind].
      * left. split; [reflexivity|]. intros [_ _ _ K _]. destruct (K v Ev) as (_ & _ & K3). apply K3. exact G.
      * right. exists (Some v'). split; [reflexivity|]. split; [discriminate|]. split; [exact C1|]. split; [discriminate|]. split.
        -- intros v0 [= <-]. rewrite Ew, Eh. split; [intros [= ->]; lia|]. split; [intros [= ->]; lia|exact G].
        -- exists w, h. auto.
  - right. exists None. split; [destruct t; cbn in *; subst; reflexivity|]. split; [discriminate|]. split; [exact C1|]. split; [discriminate|]. split; [intros v K; discriminate|exact I].
Qed.

Lemma old_false src : ~ old_source src -> old_profile src = false.
Proof. unfold old_source, old_profile. intros H. apply not_true_iff_false. rewrite !orb_true_iff, !Z.eqb_eq. tauto. Qed.
Lemma old_true src : old_source src -> old_profile src = true.
Proof. unfold old_source, old_profile. intros H. rewrite !orb_true_iff, !Z.eqb_eq. tauto. Qed.
Section Second.
Context (feq : Z -> Z -> bool) (attached : option (list Z)) (dr : Z).
Lemma links_ok l : exists keep, clean_links attached l = filter keep l /\ forall x, keep x = true <-> exists a, attached = Some a /\ In x a.
Proof.
  unfold clean_links. destruct attached as [a|].
  - exists (fun x => existsb (Z.eqb x) a). split; [reflexivity|]. intros x. rewrite existsb_exists. split.
    + intros (y & I & E). apply Z.eqb_eq in E. subst y. exists a. auto.
    + intros (b & [= <-] & I). exists x. split; [exact I|apply Z.eqb_refl].
  - exists (fun _ => false). split; [induction l; [reflexivity|exact IHl]|]. intros x. split; [discriminate|intros (b & K & _); discriminate].
Qed.
Definition audio_ok (a a' : option (option Z * option Z)) : Prop :=
  match a, a' with
  | None, None => True
  | Some (r, o), Some (r', o') => r' = Some (match r with Some x => x | None => dr end) /\ (forall x, o' = Some x <-> o = Some x /\ feq x (match r with Some y => y | None => dr end) = false)
  | _, _ => False
  end.
Lemma second_ok prof t n ty : k_num t = Some n -> 1 <= n < 2 ^ 31 -> k_type t = Some ty -> 0 <= ty < 2 ^ 31 ->
  (forall r o, k_audio t = Some (r, o) -> ~ zero_float (match r with Some x => x | None => dr end)) ->
  (prof = PROFILE_WEBM -> k_codec t <> None) ->
  (second_half feq attached dr prof t = Ok None /\ prof = PROFILE_WEBM /\ ~ (exists ty c, k_type t = Some ty /\ k_codec t = Some c /\ webm_codec ty c)) \/
  (exists a, second_half feq attached dr prof t = Ok (Some (with_links (with_audio t a) (clean_links attached (k_links t)))) /\ audio_ok (k_audio t) a /\
     (prof = PROFILE_WEBM -> exists ty c, k_type t = Some ty /\ k_codec t = Some c /\ webm_codec ty c)).
Proof.
  intros En Hn Et Hty Au Wm. unfold second_half. rewrite En, s32_small by lia. replace (n =? 0) with false by lia. rewrite Et, (s32_small ty) by lia.
  assert (A : exists a, (match k_audio t with
               | None => Ok None
               | Some (rate, out) =>
                   let r := match rate with Some x => x | None => dr end in
                   if is_zero r then Bad
                   else Ok (Some (Some r, match out with Some o => if feq o r then None else Some o | None => None end))
               end) = Ok a /\ audio_ok (k_audio t) a).
  { destruct (k_audio t) as [[r o]|]; [|exists None; split; [reflexivity|exact I]]. cbv zeta. destruct (is_zero (match r with Some x => x | None => dr end)) eqn:Z0; [exfalso; apply (Au r o eq_refl), is_zero_iff, Z0|].
    eexists. split; [reflexivity|]. cbn. split; [reflexivity|]. intros x. destruct o as [y|]; [|split; [discriminate|intros [K _]; discriminate]]. destruct (feq y _) eqn:F; split; try discriminate.
    - intros [[= ->] K]. congruence.
    - intros [= ->]. auto.
    - intros [K _]. exact K. }
  destruct A as (a & Ea & Oa). cbv zeta in Ea |- *. destruct (prof =? PROFILE_WEBM) eqn:Pf.
  - apply Z.eqb_eq in Pf. destruct (k_codec t) as [c|] eqn:Ec; [|exfalso; apply (Wm Pf); reflexivity]. cbn [bind]. destruct (webm_ok ty c) eqn:Q; cbn [negb].
    + right. exists a. rewrite Ea. cbn [bind]. split; [reflexivity|]. split; [exact Oa|]. intros _. exists ty, c. split; [reflexivity|]. split; [reflexivity|]. apply webm_ok_iff, Q.
    + left. split; [reflexivity|]. split; [exact Pf|]. intros (ty' & c' & [= <-] & [= <-] & K). apply webm_ok_iff in K. congruence.
  - apply Z.eqb_neq in Pf. cbn [bind negb]. right. exists a. rewrite Ea. cbn [bind]. split; [reflexivity|]. split; [exact Oa|]. intros K. contradiction.
Qed.

(** One pass over the tracks of a newer file. *)
Lemma walk_new src prof l : old_profile src = false -> Forall (plain dr prof) l -> forall done,
  exists l', walk feq attached dr src prof done l = Ok (Through prof (done ++ l')) /\ chosen feq attached dr prof l l'.
Proof.
  intros Src F. induction F as [|t l P _ IH]; intros done; [exists []; rewrite app_nil_r; split; [reflexivity|constructor]|]. cbn [walk].
  destruct (first_ok dr prof t P) as [[E N]|(v' & E & N1 & N2 & N3 & N4 & V)]; rewrite E; cbn [bind].
  - destruct (IH done) as (l' & E' & C). exists l'. split; [exact E'|]. constructor; assumption.
  - rewrite Src. destruct (k_num t) as [n|] eqn:En; [|congruence]. destruct (k_type t) as [ty|] eqn:Et; [|congruence]. pose proof (pl_num _ _ _ P n En) as Hn. pose proof (pl_type _ _ _ P ty Et) as Hty.
    destruct (second_ok prof (with_video t v') n ty) as [(E2 & Pf & W)|(a & E2 & Oa & W)]; [exact En|exact Hn|exact Et|exact Hty|exact (pl_audio _ _ _ P)| | |].
    + intros Pf. destruct (pl_webm _ _ _ P Pf) as [K|K]; [exact K|]. destruct N2 as [K'|K']; [exact K'|congruence].
    + rewrite E2. cbn [bind]. destruct (IH done) as (l' & E' & C). exists l'. split; [exact E'|]. constructor; [|exact C]. intros S. apply W. exact (st_webm _ _ S Pf).
    + rewrite E2. cbn [bind]. destruct (IH (done ++ [with_links (with_audio (with_video t v') a) (clean_links attached (k_links t))])) as (l' & E' & C).
      eexists. split; [cbn in E' |- *; rewrite E', <- app_assoc; reflexivity|]. cbn [app]. constructor; [| |exact C].
      * constructor; [congruence|exact N2|congruence|exact N4|exact W].
      * constructor; cbn [k_num k_uid k_type k_codec k_ops k_video k_audio k_links with_links with_audio with_video].
        -- auto.
        -- destruct (k_video t), v'; try exact V. destruct V as (w & h & V1 & V2 & _ & V3). exists w, h. auto.
        -- exact Oa.
        -- apply links_ok.
Qed.
Lemma chosen_none prof l l' : chosen feq attached dr prof l l' -> l' = [] <-> forall t, In t l -> ~ stays prof t.
Proof.
  intros C. induction C as [|t l l' N C IH|t t' l l' S Cl C IH].
  - split; [intros _ t []|reflexivity].
  - rewrite IH. split; [intros K t' [<-|I]; [exact N|exact (K t' I)]|intros K t' I; exact (K t' (or_intror I))].
  - split; [discriminate|]. intros K. exfalso. exact (K t (or_introl eq_refl) S).
Qed.
Lemma tracks_new fuel src prof l : ~ old_source src -> Forall (plain dr prof) l ->
  exists l', clean_tracks feq attached dr (S fuel) src prof l = Ok (match l' with [] => -19 | _ => 0 end, prof, l') /\ chosen feq attached dr prof l l'.
Proof.
  intros Src F. destruct (walk_new src prof l (old_false _ Src) F []) as (l' & E & C). exists l'. split; [|exact C]. cbn [clean_tracks]. rewrite E. reflexivity.
Qed.
End Second.
