From Coq Require Import Permutation.
From Verif Require Import Base BaseProofs Tree MkSchema TrackClean TrackCleanSpec TrackCleanProofs TrackCleanProofs2 TrackCleanProofs3 TrackCleanProofs4 TrackCleanProofs5.

(** *** C93: display sizes and cropping *)
(** A 720x480 video shown as 16:9: rescaled to 853.33x480 is not exact, so it becomes a ratio; cropping stays. *)
Definition v0 : video := mkVideo (Some 720) (Some 480) (Some 16) (Some 9) None (Some 8) (Some 0) None None None None.
Example C93_witness : sane v0 720 480 /\ ~ empty_display v0 /\
  clean_display v0 720 480 = Ok (Some (mkVideo (Some 720) (Some 480) (Some 16) (Some 9) (Some 3) (Some 8) (Some 0) None None None None)).
Proof. split; [unfold sane; cbn; lia|]. split; [unfold empty_display; cbn; intros [_ [K|[_ K]]]; discriminate|]. vm_compute. reflexivity. Qed.

Theorem C93_display : forall v W H, sane v W H ->
  (empty_display v -> clean_display v W H = Ok None) /\
  (~ empty_display v -> exists v', clean_display v W H = Ok (Some v') /\ displayed v v' W H).
Proof.
  intros v W H S. destruct (display_all v W H S) as [(E & G)|(G & v' & E & D)].
  - split; [intros _; exact E|intros N; exfalso; exact (N G)].
  - split; [intros K; exfalso; exact (G K)|intros _; exists v'; auto].
Qed.
Print Assumptions C93_display.

(** A display of more than half the pixels is turned into a ratio, although it is recognised as intended. *)
Theorem C93_intended_refuted : ~ (forall v W H v', sane v W H -> unit_of v = 0 -> W <= 2 * shown_w v W -> H <= 2 * shown_h v H -> clean_display v W H = Ok (Some v') -> unit_of v' = 0).
Proof.
  intros K. set (v := mkVideo (Some 720) (Some 480) (Some 640) (Some 360) None None None None None None None). set (v' := mkVideo (Some 720) (Some 480) (Some 640) (Some 360) (Some 3) None None None None None None).
  assert (E : clean_display v 720 480 = Ok (Some v')) by (vm_compute; reflexivity). specialize (K v 720 480 v'). assert (X : unit_of v' = 0); [apply K|discriminate].
  - unfold sane; cbn; lia.
  - reflexivity.
  - cbn; lia.
  - cbn; lia.
  - exact E.
Qed.
Print Assumptions C93_intended_refuted.

(** Cropping is given in pixels but limited by the display size: with a size in centimetres it is lost. *)
Theorem C93_crop_refuted : ~ (forall v W H v', sane v W H -> unit_of v <> 3 -> amount (d_top v) + amount (d_bottom v) < H -> amount (d_left v) + amount (d_right v) < W ->
  clean_display v W H = Ok (Some v') -> kept_crop (d_top v) (d_top v')).
Proof.
  intros K. set (v := mkVideo (Some 720) (Some 480) (Some 40) (Some 30) (Some 1) None None (Some 60) (Some 60) None None). set (v' := mkVideo (Some 720) (Some 480) (Some 40) (Some 30) (Some 1) None None None None None None).
  assert (E : clean_display v 720 480 = Ok (Some v')) by (vm_compute; reflexivity). specialize (K v 720 480 v'). assert (X : kept_crop (d_top v) (d_top v')); [apply K|discriminate X].
  - unfold sane; cbn; lia.
  - discriminate.
  - cbn; lia.
  - cbn; lia.
  - exact E.
Qed.
Print Assumptions C93_crop_refuted.

(** Without a display size, cropping that leaves nothing stays. *)
Theorem C93_void_crop_refuted : ~ (forall v W H v', sane v W H -> clean_display v W H = Ok (Some v') -> amount (d_top v') + amount (d_bottom v') < H).
Proof.
  intros K. set (v := mkVideo (Some 720) (Some 480) None None None None None (Some 300) (Some 300) None None).
  assert (E : clean_display v 720 480 = Ok (Some v)) by (vm_compute; reflexivity). specialize (K v 720 480 v ltac:(unfold sane; cbn; lia) E). cbn in K. lia.
Qed.
Print Assumptions C93_void_crop_refuted.

(** A display height of 0 stays when there is no display width. *)
Theorem C93_zero_refuted : ~ (forall v W H v', sane v W H -> clean_display v W H = Ok (Some v') -> unit_of v' = 0 -> d_dh v' <> Some 0).
Proof.
  intros K. set (v := mkVideo (Some 720) (Some 480) None (Some 0) None None None None None None None). set (v' := mkVideo (Some 720) (Some 480) None (Some 0) (Some 0) None None None None None None).
  assert (E : clean_display v 720 480 = Ok (Some v')) by (vm_compute; reflexivity). exact (K v 720 480 v' ltac:(unfold sane; cbn; lia) E eq_refl eq_refl).
Qed.
Print Assumptions C93_zero_refuted.

(** *** C94: the tracks that stay *)
(** A VP8 track, an audio track, a track without a codec. *)
Definition rate0 : Z := 4665729213955833856. (* 8000.0 *)
Definition t_vp8 : ctrack := mkCt (Some 1) (Some 11) (Some 1) (Some [86; 95; 118; 112; 56]) [] (Some v0) None [5; 6].
Definition t_opus : ctrack := mkCt (Some 2) (Some 12) (Some 2) (Some A_OPUS) [] None (Some (None, Some rate0)) [].
Definition t_mp3 : ctrack := mkCt (Some 3) (Some 13) (Some 2) (Some [65]) [] None None [].
Definition out94 : list ctrack := Eval vm_compute in match clean_tracks Z.eqb (Some [6]) rate0 1 PROFILE_V4 PROFILE_WEBM [t_vp8; t_opus; t_mp3] with Ok (_, _, l) => l | _ => [] end.
Example C94_witness : Forall (plain rate0 PROFILE_WEBM) [t_vp8; t_opus; t_mp3] /\ ~ old_source PROFILE_V4 /\
  exists l', clean_tracks Z.eqb (Some [6]) rate0 1 PROFILE_V4 PROFILE_WEBM [t_vp8; t_opus; t_mp3] = Ok (0, PROFILE_WEBM, l') /\ map k_num l' = [Some 1; Some 2] /\ map k_links l' = [[6]; []].
Proof.
  split.
  - constructor; [|constructor; [|constructor; [|constructor]]]; (constructor; [intros n [= <-]; lia|intros ty [= <-]; lia| | |intros _; left; discriminate]).
    + intros v [= <-]. exists 720, 480. split; [reflexivity|]. split; [reflexivity|]. split; [lia|]. split; [lia|]. intros _ _. unfold sane; cbn; lia.
    + discriminate.
    + discriminate.
    + intros r o [= <- <-]. unfold zero_float, rate0. intros [K|K]; discriminate.
    + discriminate.
    + discriminate.
  - split; [intros [K|[K|K]]; discriminate|]. exists out94. split; [vm_compute; reflexivity|]. split; reflexivity.
Qed.

Theorem C94_tracks : forall feq attached dr fuel src prof l, ~ old_source src -> Forall (plain dr prof) l ->
  exists code l', clean_tracks feq attached dr (S fuel) src prof l = Ok (code, prof, l') /\ chosen feq attached dr prof l l' /\
    (code = -19 /\ (forall t, In t l -> ~ stays prof t) /\ l' = [] \/ code = 0 /\ (exists t, In t l /\ stays prof t) /\ l' <> []).
Proof.
  intros feq attached dr fuel src prof l Src F. destruct (tracks_new feq attached dr fuel src prof l Src F) as (l' & E & C). eexists _, l'. split; [exact E|]. split; [exact C|]. pose proof (chosen_none feq attached dr prof l l' C) as N. destruct l' as [|x l'].
  - left. split; [reflexivity|]. split; [apply N; reflexivity|reflexivity].
  - right. split; [reflexivity|]. split; [|discriminate]. clear E F N. remember (x :: l') as k eqn:K. revert x l' K. induction C as [|t l k N C IH|t t' l k S Cl C IH]; intros x l' K; [discriminate| |].
    + destruct (IH x l' K) as (u & I & Su). exists u. split; [right; exact I|exact Su].
    + exists t. split; [left; reflexivity|exact S].
Qed.
Print Assumptions C94_tracks.

(** Tracks the program fails on: a number of 0 (unless it is a video), a Video without a width or a height, a
    sampling frequency of 0. *)
Theorem C94_failures : forall feq attached dr fuel src prof t l n ty c, ~ old_source src -> prof <> PROFILE_WEBM ->
  k_num t = Some n -> k_type t = Some ty -> k_codec t = Some c -> 0 <= n < 2 ^ 31 -> 0 <= ty < 2 ^ 31 ->
  (n = 0 -> ty <> 1 -> clean_tracks feq attached dr (S fuel) src prof (t :: l) = Null) /\
  (forall v, 1 <= n -> k_video t = Some v -> d_pw v = None \/ d_ph v = None -> clean_tracks feq attached dr (S fuel) src prof (t :: l) = Null) /\
  (forall r o, 1 <= n -> k_video t = None -> k_audio t = Some (Some r, o) -> zero_float r -> clean_tracks feq attached dr (S fuel) src prof (t :: l) = Bad).
Proof.
  intros feq attached dr fuel src prof t l n ty c Src Pf En Et Ec Hn Hty. cbn [clean_tracks walk]. unfold first_half. rewrite En, Ec, Et, !s32_small by lia. unfold TYPE_VIDEO.
  assert (Old : old_profile src = false) by exact (old_false src Src). rewrite Old. split; [|split].
  - intros -> N. replace (ty =? 1) with false by lia. reflexivity.
  - intros v N Ev D. replace (n =? 0) with false by lia. cbn [andb]. rewrite Ev. destruct D as [-> | ->]; [destruct (d_ph v); reflexivity|destruct (d_pw v); reflexivity].
  - intros r o N Ev Ea Z0. replace (n =? 0) with false by lia. cbn [andb]. rewrite Ev. cbn [bind]. unfold second_half. rewrite En, Et, Ea, !s32_small by lia. replace (n =? 0) with false by lia. replace (prof =? PROFILE_WEBM) with false by lia. cbn [bind negb]. apply is_zero_iff in Z0. rewrite Z0. reflexivity.
Qed.
Print Assumptions C94_failures.

(** *** C95: old stereo modes *)
Definition eyes (n u mode : Z) : ctrack := mkCt (Some n) (Some u) (Some 1) (Some V_VP8) [] (Some (mkVideo (Some 720) (Some 480) None None None None None None None None (Some mode))) None [].
Lemma eyes_sound n u m : 1 <= n < 2 ^ 31 -> sound rate0 (eyes n u m).
Proof.
  intros Hn. apply (sound_intro rate0 _ n 1); [reflexivity|exact Hn|reflexivity|lia|left; discriminate| |discriminate]. intros v [= <-]. exists 720, 480. split; [reflexivity|]. split; [reflexivity|]. split; [unfold sane; cbn; lia|]. unfold empty_display. cbn. intros [_ [K|[K _]]]; [discriminate|apply K; reflexivity].
Qed.
(** A right eye and a left eye: a third track combines them. *)
Definition out95 : list ctrack := Eval vm_compute in match clean_tracks Z.eqb None rate0 3 PROFILE_V1 PROFILE_V2 [eyes 1 11 1; eyes 2 22 2] with Ok (_, _, l) => l | _ => [] end.
Example C95_witness : Forall (sound rate0) [eyes 1 11 1; eyes 2 22 2] /\ old_source PROFILE_V1 /\
  clean_tracks Z.eqb None rate0 3 PROFILE_V1 PROFILE_V2 [eyes 1 11 1; eyes 2 22 2] = Ok (0, PROFILE_V3, out95) /\
    map marked out95 = [Some 0; Some 0; Some 0] /\ map k_num out95 = [Some 1; Some 2; Some 3] /\ map k_uid out95 = [Some 11; Some 22; Some 1] /\ map k_ops out95 = [[]; []; [[(11, 1); (22, 0)]]].
Proof.
  split; [constructor; [|constructor; [|constructor]]; apply eyes_sound; lia|]. split; [left; reflexivity|]. split; [vm_compute; reflexivity|]. vm_compute. auto.
Qed.

Theorem C95_stereo : forall feq attached dr fuel src prof l, old_source src -> prof <> PROFILE_WEBM -> Forall (sound dr) l -> l <> [] ->
  (length l < fuel)%nat -> (forall t n, In t l -> k_num t = Some n -> n + zlen l < 2 ^ 31) -> 4 * zlen l + 4 < 2 ^ 31 ->
  (clean_tracks feq attached dr fuel src prof l = Null /\ exists t x, In t l /\ k_uid t = None /\ marked t = Some x /\ x <> 0 /\ x <= 3) \/
  (exists prof' orig combined, clean_tracks feq attached dr fuel src prof l = Ok (0, prof', orig ++ combined) /\
     Forall2 follows l orig /\
     (* no old mode is left, except that both eyes may have become 1 *)
     Forall2 (fun t t' => (forall x, marked t' = Some x -> x = 0 \/ 3 < x) \/ (marked t = Some 3 /\ marked t' = Some 1)) l orig /\
     (* each combined track names two tracks that are there, with one eye each *)
     Forall (made_of l orig) combined /\
     (* numbers and UIDs stay distinct *)
     (NoDup (nums l) -> NoDup (nums (orig ++ combined))) /\ (NoDup (uids l) -> NoDup (uids (orig ++ combined))) /\
     (* the profile rises when there was an old mode *)
     ((exists t x, In t l /\ marked t = Some x /\ x <> 0 /\ x <= 3) -> prof' = PROFILE_V3) /\
     ((forall t x, In t l -> marked t = Some x -> x = 0 \/ 3 < x) -> prof' = prof)).
Proof.
  intros feq attached dr fuel src prof l Src Pf S Ne Fu Nb Lb. pose proof (flags_len feq dr l) as Fl.
  assert (Mx : forall x y, In x l -> k_num x = Some y -> y <= 2 ^ 31 - 1 - zlen l) by (intros x y I E; specialize (Nb x y I E); lia).
  destruct (loop feq attached dr src l (old_true src Src) fuel l prof (2 ^ 31 - 1 - zlen l) (inv_start dr l S) Pf ltac:(lia) Mx ltac:(unfold zlen; lia) ltac:(unfold zlen in *; lia)) as [(E & x & I & U & F)|(prof' & out & orig & cs & E & I & Pr & -> & F1 & F2 & F3 & F4)].
  - left. split; [exact E|]. unfold flag in F. destruct (marked x) as [m|] eqn:M; [|discriminate]. apply andb_true_iff in F. destruct F as [G1 G2]. exists x, m. split; [exact I|]. split; [exact U|]. split; [exact M|]. split; [intros ->; discriminate|lia].
  - right. exists prof', orig, cs. split.
    { rewrite E. destruct F1; [congruence|]. reflexivity. }
    split; [exact F1|]. split; [exact F2|]. split; [exact F3|]. split; [exact (iv_num dr _ _ I)|]. split; [exact (iv_uid dr _ _ I)|].
    destruct Pr as [[-> Ex]|[-> Fo]].
    + split; [reflexivity|]. intros K. apply Exists_exists in Ex. destruct Ex as (t & It & N). exfalso. apply N. intros x Ex. exact (K t x It Ex).
    + split; [|reflexivity]. intros (t & x & It & M & X1 & X2). exfalso. rewrite Forall_forall in Fo. destruct (Fo t It x M); lia.
Qed.
Print Assumptions C95_stereo.

Definition both_in : list ctrack := [eyes 1 11 3; eyes 2 22 1; eyes 3 33 2].
Definition both_out : list ctrack := Eval vm_compute in match clean_tracks Z.eqb None rate0 3 PROFILE_V1 PROFILE_V2 both_in with Ok (_, _, l) => l | _ => [] end.
(** Both eyes should stay marked: but with a pair of eyes in the same file they become mono. *)
Theorem C95_both_refuted : ~ (forall feq attached dr fuel src prof l prof' out, old_source src -> Forall (sound dr) l -> clean_tracks feq attached dr fuel src prof l = Ok (0, prof', out) ->
  forall i t t', nth_error l i = Some t -> nth_error out i = Some t' -> marked t = Some 3 -> marked t' = Some 1).
Proof.
  intros K. set (a := hd (eyes 1 11 3) both_out).
  assert (E : clean_tracks Z.eqb None rate0 3 PROFILE_V1 PROFILE_V2 both_in = Ok (0, PROFILE_V3, both_out)) by (vm_compute; reflexivity).
  assert (M : marked a = Some 0) by reflexivity. assert (X : marked a = Some 1); [|congruence].
  apply (K Z.eqb None rate0 3%nat PROFILE_V1 PROFILE_V2 both_in PROFILE_V3 both_out) with (i := O) (t := eyes 1 11 3); [left; reflexivity| |exact E|reflexivity|reflexivity|reflexivity].
  constructor; [|constructor; [|constructor; [|constructor]]]; apply eyes_sound; lia.
Qed.
Print Assumptions C95_both_refuted.

Definition lost_in : list ctrack :=
  [eyes 1 11 1; mkCt None (Some 22) (Some 1) (Some V_VP8) [] (Some (mkVideo (Some 720) (Some 480) None None None None None None None None (Some 2))) None []].
Definition lost_out : list ctrack := Eval vm_compute in match clean_tracks Z.eqb None rate0 3 PROFILE_V1 PROFILE_V2 lost_in with Ok (_, _, l) => l | _ => [] end.
(** A combined track may name a track that is deleted afterwards: here the left eye has no number. *)
Theorem C95_deleted_refuted : ~ (forall feq attached dr fuel src prof l code prof' out, old_source src -> clean_tracks feq attached dr fuel src prof l = Ok (code, prof', out) -> (forall t, In t l -> k_ops t = []) ->
  forall c ps u p, In c out -> In ps (k_ops c) -> In (u, p) ps -> exists t, In t out /\ k_uid t = Some u).
Proof.
  intros K. assert (E : clean_tracks Z.eqb None rate0 3 PROFILE_V1 PROFILE_V2 lost_in = Ok (0, PROFILE_V3, lost_out)) by (vm_compute; reflexivity).
  destruct (K Z.eqb None rate0 3%nat PROFILE_V1 PROFILE_V2 lost_in 0 PROFILE_V3 lost_out (or_introl eq_refl) E) with (c := nth 1 lost_out (eyes 1 11 1)) (ps := [(11, 1); (22, 0)]) (u := 22) (p := 0) as (t & It & Ut).
  - intros t [<-|[<-|[]]]; reflexivity.
  - right. left. reflexivity.
  - left. reflexivity.
  - right. left. reflexivity.
  - destruct It as [<-|[<-|[]]]; discriminate.
Qed.
Print Assumptions C95_deleted_refuted.

(** *** C96: the order of the elements of a track *)
Example C96_witness : front (fun x : Z => x) [236; 134; 131; 99; 215; 134] = [215; 131; 134; 236; 99; 134].
Proof. reflexivity. Qed.
Theorem C96_front : forall (A : Type) (id : A -> Z) l, (exists n, In n l /\ id n = 215) -> (exists t, In t l /\ id t = 131) ->
  Permutation l (front id l) /\ leads id l (front id l) /\ in_order id l (front id l).
Proof.
  intros A id l N T. destruct (front_ok id l N T) as [(M1 & M2 & M3) L]. split; [exact M1|]. split; [exact L|]. split; [exact M2|exact M3].
Qed.
Print Assumptions C96_front.
