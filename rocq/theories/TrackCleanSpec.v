(** What the cleaning of tracks must do, independent of how it is done. *)
From Verif Require Import Base Tree MkSchema TrackClean.

(** *** Display sizes *)
(** The size shown: without a display size, that of the pixels. *)
Definition shown_w (v : video) (W : Z) : Z := match d_dw v with Some x => x | None => W end.
Definition shown_h (v : video) (H : Z) : Z := match d_dh v with Some x => x | None => H end.
Definition unit_of (v : video) : Z := match d_unit v with Some u => u | None => 0 end.
(** Same shape: width to height as before. *)
Definition same_shape (v v' : video) (W H : Z) : Prop := shown_w v' W * shown_h v H = shown_h v' H * shown_w v W.
Definition small (o : option Z) (b : Z) : Prop := match o with Some x => 0 <= x < b | None => True end.
Definition sane (v : video) (W H : Z) : Prop :=
  0 < W < 2 ^ 31 /\ 0 < H < 2 ^ 31 /\ small (d_dw v) (2 ^ 63) /\ small (d_dh v) (2 ^ 63) /\
  small (d_left v) (2 ^ 62) /\ small (d_right v) (2 ^ 62) /\ small (d_top v) (2 ^ 62) /\ small (d_bottom v) (2 ^ 62).
Definition no_display (v : video) : Prop := d_dw v = None /\ d_dh v = None.
(** A display smaller than the pixels that is taken for a mere ratio. *)
Definition taken_for_ratio (W H w h : Z) : Prop :=
  w < W /\ h < H /\
  ((Z.gcd w h = 1 /\ ~ (W <= 2 * w /\ H <= 2 * h)) \/ (8 * w <= W /\ 8 * h <= H) \/ (Z.gcd w h <> 1 /\ W <= 2 * w /\ H <= 2 * h)).
(** Cropping: kept, apart from zeros, when something is left of [w]x[h]; else removed. *)
Definition amount (o : option Z) : Z := match o with Some x => x | None => 0 end.
Definition kept_crop (o o' : option Z) : Prop := o' = match o with Some 0 => None | _ => o end.
Definition crops (v v' : video) (w h : Z) : Prop :=
  (amount (d_top v) + amount (d_bottom v) < h /\ amount (d_left v) + amount (d_right v) < w /\
   kept_crop (d_left v) (d_left v') /\ kept_crop (d_right v) (d_right v') /\ kept_crop (d_top v) (d_top v') /\ kept_crop (d_bottom v) (d_bottom v')) \/
  ((h <= amount (d_top v) + amount (d_bottom v) \/ w <= amount (d_left v) + amount (d_right v)) /\
   d_left v' = None /\ d_right v' = None /\ d_top v' = None /\ d_bottom v' = None).
Definition same_crops (v v' : video) : Prop := d_left v' = d_left v /\ d_right v' = d_right v /\ d_top v' = d_top v /\ d_bottom v' = d_bottom v.
Definition no_crops (v : video) : Prop := d_left v = None /\ d_right v = None /\ d_top v = None /\ d_bottom v = None.

Record displayed (v v' : video) (W H : Z) : Prop := {
  dis_rest : d_pw v' = d_pw v /\ d_ph v' = d_ph v /\ d_stereo v' = d_stereo v /\ d_old v' = d_old v;
  dis_shape : same_shape v v' W H;
  (** the unit stays, or a ratio equal to the pixels becomes pixels, or pixels become a ratio *)
  dis_unit : unit_of v' = unit_of v \/ (unit_of v = 3 /\ unit_of v' = 0 /\ shown_w v W = W /\ shown_h v H = H) \/
             (unit_of v = 0 /\ unit_of v' = 3 /\ taken_for_ratio W H (shown_w v W) (shown_h v H) /\ d_dw v' = d_dw v /\ d_dh v' = d_dh v);
  (** the size stays unless it is taken for a ratio; then one side is that of the pixels or it becomes one *)
  dis_size : (shown_w v' W = shown_w v W /\ shown_h v' H = shown_h v H) \/
             (unit_of v = 0 /\ unit_of v' = 0 /\ taken_for_ratio W H (shown_w v W) (shown_h v H) /\ (shown_w v' W = W \/ shown_h v' H = H));
  dis_ratio : unit_of v = 0 -> taken_for_ratio W H (shown_w v W) (shown_h v H) ->
              unit_of v' = 3 \/ shown_w v' W = W \/ shown_h v' H = H;
  (** nothing superfluous in pixels *)
  dis_min : no_display v \/ unit_of v' <> 0 \/ (d_dw v' <> Some W /\ d_dh v' <> Some H);
  dis_crop : (no_display v /\ same_crops v v') \/
             (~ no_display v /\ unit_of v = 3 /\ unit_of v' = 3 /\ no_crops v') \/
             (~ no_display v /\ unit_of v = 0 /\ unit_of v' = 3 /\ same_crops v v') \/
             (~ no_display v /\ unit_of v' <> 3 /\ crops v v' (shown_w v' W) (shown_h v' H)) }.

(** *** Which tracks stay *)
(** Texts alike apart from the case of letters. *)
Definition lower (x : Z) : Z := if (65 <=? x) && (x <=? 90) then x + 32 else x.
Definition same_letters (a b : list Z) : Prop := Forall2 (fun x y => lower x = lower y) a b.
(** The codecs WebM allows: V_VP8, V_VP9 for video; A_VORBIS, A_OPUS for audio. *)
Definition webm_codec (ty : Z) (c : list Z) : Prop :=
  (ty = 1 /\ (same_letters c [86; 95; 86; 80; 56] \/ same_letters c [86; 95; 86; 80; 57])) \/
  (ty = 2 /\ (same_letters c [65; 95; 86; 79; 82; 66; 73; 83] \/ same_letters c [65; 95; 79; 80; 85; 83])).
(** The display of a video has a side of 0 pixels. *)
Definition empty_display (v : video) : Prop := unit_of v = 0 /\ (d_dw v = Some 0 \/ (d_dw v <> None /\ d_dh v = Some 0)).
Definition zero_float (x : Z) : Prop := x = 0 \/ x = 2 ^ 63.

(** Tracks as a parser gives them, apart from those the program fails on. *)
Record plain (default_rate prof : Z) (t : ctrack) : Prop := {
  pl_num : forall n, k_num t = Some n -> 1 <= n < 2 ^ 31;
  pl_type : forall ty, k_type t = Some ty -> 0 <= ty < 2 ^ 31;
  pl_video : forall v, k_video t = Some v -> exists w h, d_pw v = Some w /\ d_ph v = Some h /\ 0 <= w < 2 ^ 31 /\ 0 <= h < 2 ^ 31 /\ (0 < w -> 0 < h -> sane v w h);
  pl_audio : forall r o, k_audio t = Some (r, o) -> ~ zero_float (match r with Some x => x | None => default_rate end);
  pl_webm : prof = PROFILE_WEBM -> k_codec t <> None \/ k_ops t = [] }.
(** What a track needs to stay. *)
Record stays (prof : Z) (t : ctrack) : Prop := {
  st_num : k_num t <> None;
  st_codec : k_codec t <> None \/ k_ops t <> [];
  st_type : k_type t <> None;
  st_video : forall v, k_video t = Some v -> d_pw v <> Some 0 /\ d_ph v <> Some 0 /\ ~ empty_display v;
  st_webm : prof = PROFILE_WEBM -> exists ty c, k_type t = Some ty /\ k_codec t = Some c /\ webm_codec ty c }.
(** What is changed in one that stays. *)
Record cleaned (feq : Z -> Z -> bool) (attached : option (list Z)) (default_rate : Z) (t t' : ctrack) : Prop := {
  cl_same : k_num t' = k_num t /\ k_uid t' = k_uid t /\ k_type t' = k_type t /\ k_codec t' = k_codec t /\ k_ops t' = k_ops t;
  cl_video : match k_video t, k_video t' with
             | None, None => True
             | Some v, Some v' => exists w h, d_pw v = Some w /\ d_ph v = Some h /\ displayed v v' w h
             | _, _ => False
             end;
  cl_audio : match k_audio t, k_audio t' with
             | None, None => True
             | Some (r, o), Some (r', o') =>
                 r' = Some (match r with Some x => x | None => default_rate end) /\
                 (forall x, o' = Some x <-> o = Some x /\ feq x (match r with Some y => y | None => default_rate end) = false)
             | _, _ => False
             end;
  cl_links : exists keep, k_links t' = filter keep (k_links t) /\ forall x, keep x = true <-> exists l, attached = Some l /\ In x l }.
(** The tracks that stay, in their order. *)
Inductive chosen (feq : Z -> Z -> bool) (attached : option (list Z)) (default_rate prof : Z) : list ctrack -> list ctrack -> Prop :=
| chosen_nil : chosen feq attached default_rate prof [] []
| chosen_out t l l' : ~ stays prof t -> chosen feq attached default_rate prof l l' -> chosen feq attached default_rate prof (t :: l) l'
| chosen_in t t' l l' : stays prof t -> cleaned feq attached default_rate t t' -> chosen feq attached default_rate prof l l' -> chosen feq attached default_rate prof (t :: l) (t' :: l').
Definition old_source (src : Z) : Prop := src = PROFILE_V1 \/ src = PROFILE_V2 \/ src = PROFILE_DIVX.

(** *** Old stereo modes *)
(** The mode a track is marked with: an int; [None] without a mode. *)
Definition marked (t : ctrack) : option Z :=
  match k_video t with
  | None => None
  | Some v => match d_stereo v with Some x => Some (s32 x) | None => match d_old v with Some x => Some (s32 x) | None => None end end
  end.
(** Tracks that stay whatever happens. *)
Definition sound (dr : Z) (t : ctrack) : Prop := plain dr PROFILE_V3 t /\ stays PROFILE_V3 t.
(** A track and what becomes of it: its mode stays, or becomes 0 (mono), or 3 (both eyes) becomes 1. *)
Record follows (t t' : ctrack) : Prop := {
  fo_same : k_num t' = k_num t /\ k_type t' = k_type t /\ k_codec t' = k_codec t /\ k_ops t' = k_ops t;
  fo_uid : k_uid t' = k_uid t \/ (k_uid t = None /\ k_uid t' <> None);
  fo_pixels : match k_video t, k_video t' with None, None => True | Some v, Some v' => d_pw v' = d_pw v /\ d_ph v' = d_ph v | _, _ => False end;
  fo_mode : marked t' = marked t \/ (exists x, marked t = Some x /\ x <> 0 /\ x <= 3 /\ marked t' = Some 0) \/ (marked t = Some 3 /\ marked t' = Some 1) }.
(** The mark an eye (0 left, 1 right) may come from. *)
Definition eye (t : ctrack) (p : Z) : Prop := (p = 0 /\ marked t = Some 2) \/ (p = 1 /\ (marked t = Some 1 \/ marked t = Some 3)).
(** A track made of two of the tracks [l], now [l']: its last operation names both, with one eye each. *)
Definition made_of (l l' : list ctrack) (c : ctrack) : Prop :=
  exists i j a b a' b' u w p q, (i < j)%nat /\ nth_error l i = Some a /\ nth_error l j = Some b /\ nth_error l' i = Some a' /\ nth_error l' j = Some b' /\
    k_uid a' = Some u /\ k_uid b' = Some w /\ eye a p /\ eye b q /\ p + q = 1 /\
    k_ops c = k_ops a ++ [[(u, p); (w, q)]] /\ k_type c = k_type a /\ k_codec c = Some [86; 95; 67; 79; 77; 66; 73; 78; 69; 68] /\ marked c = Some 0.
Definition uids (l : list ctrack) : list Z := flat_map (fun t => match k_uid t with Some u => [u] | None => [] end) l.
Definition nums (l : list ctrack) : list Z := flat_map (fun t => match k_num t with Some u => [u] | None => [] end) l.

(** *** The order of elements *)
Section Order.
Context {A : Type} (id : A -> Z).
(** TrackNumber, TrackType and the CodecID if there is one come first. *)
Definition leads (l l' : list A) : Prop :=
  exists n t r, l' = n :: t :: r /\ id n = 215 /\ id t = 131 /\ (forall c, In c l -> id c = 134 -> exists c' r', r = c' :: r' /\ id c' = 134).
(** Those of one kind keep their order, and so do all that are of other kinds. *)
Definition in_order (l l' : list A) : Prop :=
  (forall x, filter (fun c => id c =? x) l' = filter (fun c => id c =? x) l) /\
  filter (fun c => negb ((id c =? 215) || (id c =? 131) || (id c =? 134))) l' = filter (fun c => negb ((id c =? 215) || (id c =? 131) || (id c =? 134))) l.
End Order.
