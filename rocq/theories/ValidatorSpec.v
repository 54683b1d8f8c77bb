(** What the checks of mkvalidator are about, independent of how they look elements up. *)
From Verif Require Import Base Ebml EbmlIdSpec IntEltSpec EltHead Tree TreeRead TreeSpec Create CreateSpec Frame BlockTime BlockTimeProofs Cues CuesSpec StrSpec MkSchema MkSpec Validator.

(** ** Trees the reader makes *)
(** Characters of a C string. *)
Definition plain (s : list Z) : Prop := Forall (fun b => 0 < b < 256) s.
(** The value of a leaf has the type of its class. *)
Definition leaf_ok (c : Z) (v : val) : Prop :=
  match c_class (mk c) with
  | KUInt | KSInt | KDate => exists x, v = VInt x /\ is_int64 x
  | KFloat => exists b, v = VFlt b
  | KString | KUni => v = VStr None \/ exists s r, v = VStr (Some (s ++ 0 :: r)) /\ plain s
  | KBinary => exists d, v = VBin d
  | KMaster => False
  | _ => True
  end.
(** An element the schema does not know there: its ID is not one of the children of [p]. *)
Definition foreign (p : Z) (d : elt) : Prop :=
  exists i v n, d = Leaf i v /\ e_kind i = Dummy n /\ forall c, listed p c -> c_id (mk c) <> n.
Inductive shaped : elt -> Prop :=
| sh_leaf i v c : e_kind i = Known c -> inside c = true -> leaf_ok c v -> shaped (Leaf i v)
| sh_master i chk ch c : e_kind i = Known c -> c_class (mk c) = KMaster -> Forall (fun d => foreign c d \/ shaped d) ch -> shaped (Master i chk ch).
(** An element of that class. *)
Definition elem (c : Z) (e : elt) : Prop := shaped e /\ e_kind (einfo e) = Known c.

(** ** Children *)
Definition kids (e : elt) : list elt := match e with Master _ _ ch => ch | Leaf _ _ => [] end.
Definition of_class (c : Z) (d : elt) : Prop := e_kind (einfo d) = Known c.
(** The first child of that class. *)
Definition first_of (c : Z) (e d : elt) : Prop := exists a b, kids e = a ++ d :: b /\ of_class c d /\ Forall (fun x => ~ of_class c x) a.
Definition none_of (c : Z) (e : elt) : Prop := Forall (fun x => ~ of_class c x) (kids e).
(** The number a master gives for a child: the one of the first child of that class, or the default of the
    class, or 0. *)
Definition default_int (c : Z) : Z := match c_def (mk c) with Some (DInt v) => v | _ => 0 end.
Definition int_is (c : Z) (e : elt) (v : Z) : Prop :=
  (exists i, first_of c e (Leaf i (VInt v))) \/ (none_of c e /\ v = default_int c).
(** The text: empty for a missing codec ID. *)
Definition text_is (c : Z) (e : elt) (s : list Z) : Prop :=
  (exists i r, first_of c e (Leaf i (VStr (Some (s ++ 0 :: r)))) /\ plain s) \/
  (exists i, first_of c e (Leaf i (VStr None)) /\ s = []) \/ (none_of c e /\ s = []).

(** ** Masters below an element *)
Inductive within (m : elt) : elt -> Prop :=
| within_here : within m m
| within_below i chk ch d : In d ch -> within m d -> within m (Master i chk ch).

(** The violations of the schema: a child the profile does not allow, two children where one is allowed, a
    child without default that must be there, a checksum that does not match. *)
Definition violates (prof code : Z) (m : elt) : Prop :=
  exists i chk ch l, m = Master i chk ch /\ table mk i l /\
    ((code = 0x203 /\ chk = 1) \/
     (code = 0x201 /\ exists d s, In d ch /\ In s l /\ of_class (s_ctx s) d /\ ~ enabled prof s) \/
     (code = 0x202 /\ exists a d b d' x s, ch = a ++ d :: b ++ d' :: x /\ In s l /\ s_uniq s = true /\ of_class (s_ctx s) d /\ of_class (s_ctx s) d') \/
     (code = 0x200 /\ exists s, In s l /\ s_mand s = true /\ c_def (mk (s_ctx s)) = None /\ Forall (fun d => ~ of_class (s_ctx s) d) ch)).

(** ** Verdict *)
Definition counted (m : msg) : Prop := match m with Err _ | Fatal _ => True | _ => False end.
Definition clean (l : list msg) : Prop := Forall (fun m => ~ counted m) l.

(** ** Seek entries *)
(** The entry leads to an element of ID [id] at position [p] of the file. *)
Definition leads (head : info) (e : elt) (id p : Z) : Prop :=
  (exists i d, first_of cSeekID e (Leaf i (VBin d)) /\ id_encodes d id) /\
  exists i r, first_of cSeekPosition e (Leaf i (VInt r)) /\ 0 <= r < 2 ^ 62 /\ p = position_data head + r.
(** Entries without a position; entries with a position but without an ID. *)
Definition no_position (e : elt) : Prop := none_of cSeekPosition e.
Definition no_id (e : elt) : Prop := none_of cSeekID e \/ exists i, first_of cSeekID e (Leaf i (VBin [])).
(** The entries the specification covers. *)
Definition plain_entry (head : info) (e : elt) : Prop :=
  elem cSeek e /\
  (none_of cSeekPosition e \/ exists i r, first_of cSeekPosition e (Leaf i (VInt r)) /\ 0 <= r < 2 ^ 62) /\
  (none_of cSeekID e \/ (exists i, first_of cSeekID e (Leaf i (VBin []))) \/ exists i d id, first_of cSeekID e (Leaf i (VBin d)) /\ id_encodes d id).
(** The elements of the segment that are there once. *)
Definition once_found (s : seg) (c : Z) (f : option elt) : Prop :=
  (c = cInfo /\ f = g_info s) \/ (c = cTracks /\ f = g_tracks s) \/ (c = cCues /\ f = g_cues s) \/
  (c = cTags /\ f = g_tags s) \/ (c = cChapters /\ f = g_chapters s) \/ (c = cAttachments /\ f = g_att s).
(** An entry mkvalidator accepts. *)
Definition entry_fine (s : seg) (main : bool) (head e : elt) : Prop :=
  exists id p, leads (g_head s) e id p /\
    (forall c f, once_found s c f -> id = c_id (mk c) -> exists x, f = Some x /\ e_epos (einfo x) = p) /\
    (id = c_id (mk cSeekHead) -> e_epos (einfo head) <> p /\
       (main = true -> g_seek2 s <> None) /\ (main = false -> forall x, g_seek s = Some x -> e_epos (einfo x) = p)) /\
    (id = c_id (mk cCluster) -> g_clusters s = [] \/ exists c, In c (g_clusters s) /\ e_epos (einfo (vc_elt c)) = p).

(** ** Video tracks *)
(** The size a video is shown with: the child, or the number of pixels when the unit is pixels, or unknown. *)
Definition shown_size (c : Z) (video : elt) (unit pixels v : Z) : Prop :=
  (exists i, first_of c video (Leaf i (VInt v))) \/ (none_of c video /\ v = (if unit =? 0 then pixels else 0)).
(** A number a file has there, of no more than 31 bits. *)
Definition small (x : Z) : Prop := 0 <= x < 2 ^ 31.
Record video_track := mkVT { v_unit : Z; v_pw : Z; v_ph : Z; v_dw : Z; v_dh : Z; v_top : Z; v_bottom : Z; v_left : Z; v_right : Z }.
Definition is_video (e : elt) (v : video_track) : Prop :=
  int_is cDisplayUnit e (v_unit v) /\ int_is cPixelWidth e (v_pw v) /\ int_is cPixelHeight e (v_ph v) /\
  shown_size cDisplayWidth e (v_unit v) (v_pw v) (v_dw v) /\ shown_size cDisplayHeight e (v_unit v) (v_ph v) (v_dh v) /\
  int_is cPixelCropTop e (v_top v) /\ int_is cPixelCropBottom e (v_bottom v) /\
  int_is cPixelCropLeft e (v_left v) /\ int_is cPixelCropRight e (v_right v) /\
  Forall small [v_unit v; v_pw v; v_ph v; v_dw v; v_dh v; v_top v; v_bottom v; v_left v; v_right v].
(** Signs that the sizes in pixels are in truth an aspect ratio. *)
Definition shrunk (v : video_track) : Prop := v_unit v = 0 /\ v_dw v < v_pw v /\ v_dh v < v_ph v.
Definition reduced (v : video_track) : Prop := Z.gcd (v_dw v) (v_dh v) = 1.
Definition same_ratio (v : video_track) : Prop := v_dw v * v_ph v = v_dh v * v_pw v.
Definition tiny (v : video_track) : Prop := 8 * v_dw v <= v_pw v /\ 8 * v_dh v <= v_ph v.
Definition has_child (c : Z) (e : elt) : Prop := exists d, In d (kids e) /\ of_class c d.

(** ** Tracks *)
(** A sampling frequency of 0 in the Audio element. *)
Definition zero_rate (track : elt) : Prop :=
  exists a c i b, first_of cAudio track a /\ (c = cSamplingFrequency \/ c = cOutputSamplingFrequency) /\ first_of c a (Leaf i (VFlt b)) /\ (b = 0 \/ b = 2 ^ 63).
(** An attached file of that UID. *)
Definition attached (a : elt) (uid : Z) : Prop :=
  exists f i, In f (kids a) /\ of_class cAttachedFile f /\ first_of cFileUID f (Leaf i (VInt uid)).
Definition links_to (track : elt) (uid : Z) : Prop := exists i, In (Leaf i (VInt uid)) (kids track) /\ of_class cAttachmentLink (Leaf i (VInt uid)).
(** Codec names. *)
Definition VORBIS_NAME : list Z := [65; 95; 86; 79; 82; 66; 73; 83].
Definition OPUS_NAME : list Z := [65; 95; 79; 80; 85; 83].
Definition VP8_NAME : list Z := [86; 95; 86; 80; 56].
Definition VP9_NAME : list Z := [86; 95; 86; 80; 57].
Definition TRUEHD_NAME : list Z := [65; 95; 84; 82; 85; 69; 72; 68].
(** A letter for the kind of track (A, V, S or B), an underscore and at least one more character. *)
Definition codec_name (s : list Z) : Prop := exists x r, s = x :: 95 :: r /\ r <> [] /\ exists k, In k [65; 86; 83; 66] /\ same_letter x k.

(** Entries that count as a reference to the element of class [c]. *)
Definition referenced (s : seg) (head : elt) (c : Z) : Prop :=
  exists e p, In e (kids head) /\ of_class cSeek e /\ leads (g_head s) e (c_id (mk c)) p /\ (c = cSeekHead -> e_epos (einfo head) <> p).
(** Entries that lead to something else than a level 1 element. *)
Definition odd_entry (s : seg) (head : elt) : Prop :=
  exists e id p, In e (kids head) /\ of_class cSeek e /\ leads (g_head s) e id p /\
    Forall (fun c => id <> c_id (mk c)) [cInfo; cTracks; cCues; cTags; cChapters; cAttachments; cSeekHead; cCluster].

(** ** Unknown elements and voids *)
Definition unknown_in (e : elt) : Prop := exists m d n, within m e /\ In d (kids m) /\ e_kind (einfo d) = Dummy n.
(** The size of all the voids below an element, heads included. *)
Definition void_size (d : elt) : Z :=
  match c_class (mk (match e_kind (einfo d) with Known c => c | Dummy _ => -1 end)) with
  | KVoid => let i := einfo d in full_size (eid_of mk i) (e_dsize i) (e_szlen i) (e_fin i)
  | _ => 0
  end.
Fixpoint voids (e : elt) : Z :=
  match e with
  | Leaf _ _ => 0
  | Master _ _ ch => (fix go (l : list elt) : Z := match l with [] => 0 | d :: l => void_size d + voids d + go l end) ch
  end.
(** In every master a void is the first child. *)
Inductive void_first : elt -> Prop :=
| vf_leaf i v : void_first (Leaf i v)
| vf_none i chk : void_first (Master i chk [])
| vf_master i chk d ch : void_first d -> Forall (fun x => ~ of_class cEbmlVoid x /\ void_first x) ch -> void_first (Master i chk (d :: ch)).

(** ** Clusters *)
(** The value of the first child of that class, if there is one. *)
Definition child_int (c : Z) (e : elt) (v : Z) : Prop := exists i, first_of c e (Leaf i (VInt v)).
Definition placed (e : elt) : Prop := 0 <= e_epos (einfo e) < 2 ^ 62.

(** ** Blocks *)
(** The first track of that number. *)
Definition track_of (tracks : list elt) (n : Z) (t : elt) : Prop :=
  exists a b, tracks = a ++ t :: b /\ int_is cTrackNumber t n /\ Forall (fun x => ~ int_is cTrackNumber x n) a.
Definition low_track (b : vblock) : Prop := 0 <= vb_track b < 2 ^ 15.
(** The bytes of the blocks of a track. *)
Fixpoint total (n : Z) (l : list vblock) : Z :=
  match l with [] => 0 | b :: l => (if vb_track b =? n then fold_left Z.add (vb_lens b) 0 else 0) + total n l end.
(** Tracks whose blocks must all be key frames: neither video nor TrueHD audio. *)
Definition all_keys (t : elt) : Prop :=
  exists k, int_is cTrackType t k /\ k <> 1 /\ (k = 2 -> exists s, text_is cCodecID t s /\ ~ same_text s TRUEHD_NAME).
Definition video_num (tracks : list elt) (n : Z) : Prop := exists t, track_of tracks n t /\ int_is cTrackType t 1.
(** The blocks of a cluster that are looked at: the simple ones, and the first of each group. *)
Definition seen (c : vclus) (l : list vblock) : Prop :=
  l = flat_map (fun it => match it with VSimple b => [b] | VGroup g => match flat_map (fun o => match o with Some b => [b] | None => [] end) g with [] => [] | b :: _ => [b] end | VOther => [] end) (vc_items c).
(** A track that starts with other frames than a key frame, and has one later. *)
Definition late_key (l : list vblock) (n : Z) : Prop :=
  exists a b c d e, l = a ++ b :: c ++ d :: e /\ Forall (fun x => vb_track x <> n) a /\ vb_track b = n /\ vb_key b = false /\ vb_track d = n /\ vb_key d = true.

(** ** Cue points *)
(** A cluster whose blocks all have a time, in a segment of that scale. *)
Definition timed_cluster (s : Z) (c : vclus) : Prop :=
  exists ct, at_time ct (vc_time c) /\ big ct /\ Forall (timed ct s) (places 0 (map cue_child (vc_items c))).
(** The cluster has a block of that track and time. *)
Definition points_at (s t n : Z) (c : vclus) : Prop :=
  exists ct p, at_time ct (vc_time c) /\ In p (places 0 (map cue_child (vc_items c))) /\ matches ct s n t p.

(** ** Whole files *)
(** No violation of the schema anywhere below. *)
Definition lawful (prof : Z) (e : elt) : Prop := forall c x, within x e -> ~ violates prof c x.
(** The level 1 elements of that class: the first, all. *)
Definition first_level1 (c : Z) (f : source) (e : elt) : Prop :=
  exists a x b, f_level1 f = a ++ x :: b /\ vc_elt (l_what x) = e /\ of_class c e /\ Forall (fun y => ~ of_class c (vc_elt (l_what y))) a.
Definition level1_of (c : Z) (f : source) (x : lv1) : Prop := In x (f_level1 f) /\ of_class c (vc_elt (l_what x)).
(** The level 1 elements are those of a Segment. *)
Definition a_segment (f : source) (i : info) : Prop := f_seg f = Some i /\ elem cSegment (Master i 0 (map (fun x => vc_elt (l_what x)) (f_level1 f))).
(** The document type of an EBML header, "matroska" when there is none. *)
Definition doc_is (e : elt) (s : list Z) : Prop :=
  (exists i r, first_of cDocType e (Leaf i (VStr (Some (s ++ 0 :: r)))) /\ plain s) \/
  (exists i, first_of cDocType e (Leaf i (VStr None)) /\ s = []) \/
  (none_of cDocType e /\ s = [109; 97; 116; 114; 111; 115; 107; 97]).
(** The profile of a document type and version: "webm", "matroska". *)
Definition doc_profile (divx : bool) (doc : list Z) (ver prof : Z) : Prop :=
  (doc = [119; 101; 98; 109] /\ prof = 8) \/
  (doc = [109; 97; 116; 114; 111; 115; 107; 97] /\
     ((divx = true /\ prof = 16) \/
      (divx = false /\ ((ver = 1 /\ prof = 1) \/ (ver = 2 /\ prof = 2) \/ (ver = 3 /\ prof = 4) \/ (ver = 4 /\ prof = 32) \/ (ver = 5 /\ prof = 64) \/ (~ 1 <= ver <= 5 /\ prof = 0))))).

(** ** Places, times and numbers *)
(** The header of a segment of a file that is not too long. *)
Definition seg_head (h : info) : Prop := e_kind h = Known cSegment /\ 0 <= position_data h < 2 ^ 62.
Definition cluster_ok (c : vclus) : Prop := elem cCluster (vc_elt c) /\ placed (vc_elt c).
Definition ctime (c : vclus) : Z := fst (cluster_time (vc_time c)).
(** The number of one of the tracks. *)
Definition nums (tracks : list elt) (n : Z) : Prop := exists t, In t tracks /\ child_int cTrackNumber t n.
Definition err_free (l : list msg) : Prop := forall c, ~ In (Err c) l.
(** The children of a class, in order. *)
Definition ofb (c : Z) (d : elt) : bool := match e_kind (einfo d) with Known x => x =? c | Dummy _ => false end.
Definition kids_of (c : Z) (e : elt) : list elt := filter (ofb c) (kids e).
