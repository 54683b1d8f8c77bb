(** C72 to C79: mkvalidator. *)
From Verif Require Import Base BaseProofs Vint EbmlId EbmlIdSpec IntElt IntEltSpec IntEltProofs EltHead Ebml Stream Tree TreeRead TreeSpec TreeProofs Create CreateSpec CreateProofs Frame BlockTime BlockTimeProofs Cues CuesSpec CuesProofs Str StrSpec MkSchema MkSpec MkProofs Validator ValidatorSpec ValidatorProofs ValidatorProofs2 ValidatorProofs3 ValidatorProofs4 ValidatorProofs5 ValidatorProofs6 ValidatorProofs7 ValidatorProofs8 ValidatorProofs9 ValidatorProofs10 ValidatorProofs11.

(** ** A file for the examples *)
Definition ex_i (c p : Z) : info := mkInfo (Known c) true false true 10 0 1 p (p + 4) (p + 15).
Definition ex_num (c v : Z) : elt := Leaf (ex_i c 0) (VInt v).
Definition ex_str (c : Z) (s : list Z) : elt := Leaf (ex_i c 0) (VStr (Some (s ++ [0]))).
Definition ex_head (doc : list Z) (ver rver : Z) : elt := Master (ex_i cHead 0) 0 [ex_num cVersion 1; ex_str cDocType doc; ex_num cDocTypeVersion ver; ex_num cDocTypeReadVersion rver].
Definition ex_seg : info := mkInfo (Known cSegment) true false true 1000 0 8 40 44 1052.
Definition ex_seek (id : list Z) (p : Z) : elt := Master (ex_i cSeek 0) 0 [Leaf (ex_i cSeekID 0) (VBin id); ex_num cSeekPosition p].
Definition ex_seekhead : elt := Master (ex_i cSeekHead 52) 0 [ex_seek [21; 73; 169; 102] 50; ex_seek [22; 84; 174; 107] 150; ex_seek [31; 67; 182; 117] 300].
Definition ex_info : elt := Master (ex_i cInfo 102) 0 [ex_num cTimestampScale 1000000; ex_str cMuxingApp [97]; ex_str cWritingApp [98]].
Definition ex_video : elt := Master (ex_i cVideo 0) 0 [ex_num cPixelWidth 640; ex_num cPixelHeight 480].
Definition ex_track : elt := Master (ex_i cTrackEntry 0) 0 [ex_num cTrackNumber 1; ex_num cTrackUID 77; ex_num cTrackType 1; ex_num cFlagLacing 0; ex_str cCodecID V_VP8; ex_video].
Definition ex_tracks : elt := Master (ex_i cTracks 202) 0 [ex_track].
Definition ex_tb (loc : Z) : tblock := mkT loc true INVALID_TIMESTAMP (Some 1000000) (Some 1000000) true true.
Definition ex_block (k : bool) (loc : Z) : vblock := mkVB 1 false k [100] (ex_tb loc).
Definition ex_cluster (p t : Z) (l : list vitem) : vclus := mkVC (Master (mkInfo (Known cCluster) true false true 700 0 8 p (p + 4) 1052) 0 [ex_num cTimestamp t]) l (mkCl (Some t) INVALID_TIMESTAMP (Some 1000000) (Some 1000000)).
Definition ex_l1 (e : elt) : lv1 := mkL1 true (mkVC e [] (mkCl None INVALID_TIMESTAMP None None)).
Definition ex_clus : vclus := ex_cluster 352 7 [VSimple (ex_block true 0); VGroup [None; Some (ex_block false 20)]].
Definition ex_file : source := mkSrc (Some (true, ex_head WEBM 4 2)) (Some ex_seg) [ex_l1 ex_seekhead; ex_l1 ex_info; ex_l1 ex_tracks; mkL1 true ex_clus].
Definition ex_td (x : Z) : Z := x.
Definition ex_o : opts := mkOpts false false.
(** The same without MuxingApp; with a seek head that cannot be read; with a header that asks for a higher
    version than it has; without tracks. *)
Definition ex_poor : elt := Master (ex_i cInfo 102) 0 [ex_num cTimestampScale 1000000; ex_str cWritingApp [98]].
Definition ex_missing : source := mkSrc (f_head ex_file) (f_seg ex_file) [ex_l1 ex_seekhead; ex_l1 ex_poor; ex_l1 ex_tracks; mkL1 true ex_clus].
Definition ex_broken : source := mkSrc (f_head ex_file) (f_seg ex_file) [mkL1 false (mkVC ex_seekhead [] (mkCl None INVALID_TIMESTAMP None None)); ex_l1 ex_info; ex_l1 ex_tracks; mkL1 true ex_clus].
Definition ex_versions : source := mkSrc (Some (true, ex_head WEBM 2 4)) (Some ex_seg) (f_level1 ex_file).
Definition ex_untracked : source := mkSrc (f_head ex_file) (f_seg ex_file) [ex_l1 ex_info; mkL1 true ex_clus].

(** ** C72 *)
(** The result of main is 0 exactly when no error was found, and never positive. *)
Theorem C72_result : forall td fuel o f l, validate td fuel o f = Ok l -> result l <= 0 /\ (result l = 0 <-> clean l).
Proof. exact validate_result. Qed.
Print Assumptions C72_result.
Example C72_result_ex : validate ex_td 100 ex_o ex_file = Ok [] /\ (exists l, validate ex_td 100 ex_o ex_missing = Ok l /\ result l = - 0x200).
Proof. split; [vm_compute; reflexivity|]. eexists. split; [vm_compute; reflexivity|vm_compute; reflexivity]. Qed.

(** What a result of 0 tells: the header is read and of a known document type, which gives the profile;
    there is an Info, and Tracks when there are clusters; the level 1 elements were read, and the ones looked
    at violate nothing; Tags and Attachments are there at most once; with --live there are no Chapters and
    Attachments; otherwise the entries of the first SeekHead lead to the elements they name. *)
Theorem C72_sound : forall td fuel o f i l, a_segment f i -> (forall b e, f_head f = Some (b, e) -> elem cHead e) -> validate td fuel o f = Ok l -> result l = 0 ->
  exists h prof doc ver, f_head f = Some (true, h) /\ doc_is h doc /\ int_is cDocTypeVersion h ver /\ doc_profile (o_divx o) doc ver prof /\
    (exists e, first_level1 cInfo f e) /\
    ((exists x, level1_of cCluster f x) -> exists t, first_level1 cTracks f t) /\
    (forall c x, In c [cCluster; cInfo; cTracks; cTags] \/ (o_live o = false /\ In c [cSeekHead; cCues; cChapters; cAttachments]) -> level1_of c f x -> l_ok x = true) /\
    (forall x, level1_of cCluster f x -> lawful prof (vc_elt (l_what x))) /\
    (forall c e, In c [cInfo; cTracks; cTags] \/ (o_live o = false /\ In c [cSeekHead; cCues; cChapters; cAttachments]) -> first_level1 c f e -> lawful prof e) /\
    (forall c a x b, In c [cTags; cAttachments] -> f_level1 f = a ++ x :: b -> of_class c (l_elt x) -> Forall (fun y => ~ of_class c (l_elt y)) a) /\
    (forall c x, In c [cChapters; cAttachments] -> level1_of c f x -> o_live o = false) /\
    (o_live o = false -> seg_head i -> forall hd e, first_level1 cSeekHead f hd -> Forall (plain_entry i) (all_of cSeek hd) -> In e (kids hd) -> of_class cSeek e ->
       exists id p, leads i e id p /\
         (forall c, In c [cInfo; cTracks; cTags; cCues; cChapters; cAttachments] -> id = c_id (mk c) -> exists x, first_level1 c f x /\ e_epos (einfo x) = p) /\
         (id = c_id (mk cCluster) -> (exists x, level1_of cCluster f x) -> exists x, level1_of cCluster f x /\ e_epos (einfo (l_elt x)) = p)).
Proof. intros td fuel o f i l HS HH H R. apply (sound td fuel o f i l HS HH H). apply (proj2 (validate_result _ _ _ _ _ H)). exact R. Qed.
Print Assumptions C72_sound.
Example C72_sound_ex : a_segment ex_file ex_seg /\ (forall b e, f_head ex_file = Some (b, e) -> elem cHead e) /\ validate ex_td 100 ex_o ex_file = Ok [] /\ result [] = 0 /\ seg_head ex_seg.
Proof.
  split; [split; [reflexivity|apply elemb_ok; vm_compute; reflexivity]|]. split; [intros b e [= _ <-]; apply elemb_ok; vm_compute; reflexivity|]. split; [vm_compute; reflexivity|]. split; [reflexivity|]. split; [reflexivity|]. vm_compute. split; [discriminate|reflexivity].
Qed.

(** The exit status, of which the system keeps 8 bits, is 0 for files without errors, but also for files
    whose only errors are missing elements (0x200), and when a SeekHead cannot be read (0x100). *)
Theorem C72_status : forall td fuel o f l, validate td fuel o f = Ok l ->
  (exit_status l = 0 <-> In (Fatal 0x100) l \/ forall m, In m l -> counted m -> m = Err 0x200).
Proof. exact validate_status. Qed.
Print Assumptions C72_status.
Theorem C72_status_refuted :
  (exists l, validate ex_td 100 ex_o ex_missing = Ok l /\ In (Err 0x200) l /\ exit_status l = 0) /\
  (exists l, validate ex_td 100 ex_o ex_broken = Ok l /\ In (Fatal 0x100) l /\ exit_status l = 0).
Proof. split; (eexists; split; [vm_compute; reflexivity|]; split; [left; reflexivity|vm_compute; reflexivity]). Qed.
Print Assumptions C72_status_refuted.
(** Errors of the header do not count: here DocTypeReadVersion is above DocTypeVersion. *)
Theorem C72_header_refuted : exists l, validate ex_td 100 ex_o ex_versions = Ok l /\ In (Lost 9) l /\ result l = 0.
Proof. eexists. split; [vm_compute; reflexivity|]. split; [left; reflexivity|vm_compute; reflexivity]. Qed.
Print Assumptions C72_header_refuted.

(** ** C73 *)
(** CheckProfileViolation reports every violation of the schema below an element, and nothing else. *)
Theorem C73_profile : forall prof e, shaped e -> exists l, check_profile prof e = Ok l /\ forall m, In m l <-> exists c x, m = Err c /\ within x e /\ violates prof c x.
Proof. exact profile_ok. Qed.
Print Assumptions C73_profile.
(** PrevUUID is not in the WebM profile; two DateUTC; no WritingApp; a checksum that does not match. *)
Definition ex_bad_info : elt := Master (ex_i cInfo 102) 1 [ex_num cDateUTC 5; Leaf (ex_i cPrevUUID 0) (VBin [1]); ex_num cDateUTC 6; ex_str cMuxingApp [97]].
Example C73_profile_ex : shaped ex_bad_info /\ check_profile P_WEBM ex_bad_info = Ok [Err 0x203; Err 0x202; Err 0x201; Err 0x202; Err 0x200] /\ shaped ex_info /\ check_profile P_WEBM ex_info = Ok [].
Proof. split; [apply shapedb_ok; vm_compute; reflexivity|]. split; [vm_compute; reflexivity|]. split; [apply shapedb_ok; vm_compute; reflexivity|vm_compute; reflexivity]. Qed.

(** ** C74 *)
(** The seek heads: an error exactly when some entry is not fine, a warning for entries that lead to nothing
    of level 1, and for level 1 elements the main seek head does not lead to. *)
Theorem C74_seek_head : forall s main head, seg_head (g_head s) -> elem cSeekHead head -> (forall e, In e (kids head) -> of_class cSeek e -> plain_entry (g_head s) e) ->
  exists l, check_seek_head s main head = Ok l /\
  (err_free l <-> forall e, In e (kids head) -> of_class cSeek e -> entry_fine s main head e) /\
  (In (Warn 0x860) l <-> odd_entry s head) /\
  (In (Warn 0x861) l <-> main = true /\ ((exists c x, once_found s c (Some x) /\ ~ referenced s head c) \/ (g_seek2 s <> None /\ ~ referenced s head cSeekHead))).
Proof.
  intros s main head Hs He HF. apply seek_ok; [exact Hs|exact He|]. apply Forall_forall. intros e H. assert (L : listed cSeekHead cSeek) by mk_side. apply (all_of_ok _ head cSeek e He L) in H. apply HF; apply H.
Qed.
Print Assumptions C74_seek_head.
Definition ex_state (seek2 : option elt) (cl : list vclus) : seg := mkSeg ex_seg (Some ex_info) (Some ex_tracks) None None None None (Some ex_seekhead) seek2 cl.
Lemma ex_entry id v p : id_encodes id v -> 0 <= p < 2 ^ 62 -> plain_entry ex_seg (ex_seek id p).
Proof.
  intros Hi Hp. split.
  - split; [|reflexivity]. assert (I : is_int64 p) by (unfold is_int64; lia). apply (sh_master _ _ _ cSeek); [reflexivity|reflexivity|]. constructor; [right|constructor; [right|constructor]].
    + apply (sh_leaf _ _ cSeekID); [reflexivity|reflexivity|]. exists id. reflexivity.
    + apply (sh_leaf _ _ cSeekPosition); [reflexivity|reflexivity|]. exists p. auto.
  - split; right.
    + exists (ex_i cSeekPosition 0), p. split; [|exact Hp]. apply first_find. reflexivity.
    + right. exists (ex_i cSeekID 0), id, v. split; [|exact Hi]. apply first_find. reflexivity.
Qed.
Lemma ex_id a b c d : bytes_ok [a; b; c; d] -> 16 <= a < 32 -> id_encodes [a; b; c; d] (be_val [a; b; c; d]).
Proof.
  intros H Ha. split; [exact H|]. split; [|reflexivity]. unfold bytes_ok in H. rewrite !Forall_cons_iff in H. destruct H as (H1 & H2 & H3 & H4 & _). unfold valid_id_len. change (zlen [a; b; c; d]) with 4.
  unfold be_val. cbn [be_val_from]. unfold is_byte in *. change (2 ^ (7 * 4)) with 268435456. change (2 ^ (7 * 4 + 1)) with 536870912. lia.
Qed.
Example C74_seek_head_ex : seg_head ex_seg /\ elem cSeekHead ex_seekhead /\ (forall e, In e (kids ex_seekhead) -> of_class cSeek e -> plain_entry ex_seg e) /\
  check_seek_head (ex_state None [ex_clus]) true ex_seekhead = Ok [] /\
  check_seek_head (ex_state None [ex_cluster 353 7 []]) true (Master (ex_i cSeekHead 52) 0 [ex_seek [21; 73; 169; 102] 51; ex_seek [31; 67; 182; 117] 300; ex_seek [24; 84; 174; 107] 0]) = Ok [Err 0x63; Err 0x71; Warn 0x860; Warn 0x861].
Proof.
  split; [split; [reflexivity|vm_compute; split; [discriminate|reflexivity]]|]. split; [apply elemb_ok; vm_compute; reflexivity|]. split; [|split; vm_compute; reflexivity].
  intros e H _. cbn [kids ex_seekhead In] in H. destruct H as [<-|[<-|[<-|[]]]]; (eapply ex_entry; [apply ex_id; [repeat constructor; unfold is_byte; lia|lia]|lia]).
Qed.
(** Findings.  The position of an entry for a second seek head is not looked at; an entry for a cluster is
    accepted when there is none. *)
Theorem C74_second_refuted : exists s head, g_seek2 s <> None /\ check_seek_head s true head = Ok [] /\
  exists e p, In e (kids head) /\ leads (g_head s) e (c_id (mk cSeekHead)) p /\ forall x, g_seek2 s = Some x -> e_epos (einfo x) <> p.
Proof.
  exists (mkSeg ex_seg None None None None None None (Some ex_seekhead) (Some (Master (ex_i cSeekHead 700) 0 [])) []), (Master (ex_i cSeekHead 52) 0 [ex_seek [17; 77; 155; 116] 123]).
  split; [discriminate|]. split; [vm_compute; reflexivity|]. exists (ex_seek [17; 77; 155; 116] 123), (52 + 123). split; [left; reflexivity|]. split.
  - split; [exists (ex_i cSeekID 0), [17; 77; 155; 116]; split; [apply first_find; reflexivity|]|exists (ex_i cSeekPosition 0), 123; split; [apply first_find; reflexivity|]; split; [lia|reflexivity]].
    change (c_id (mk cSeekHead)) with (be_val [17; 77; 155; 116]). apply ex_id; [repeat constructor; unfold is_byte; lia|lia].
  - intros x [= <-]. cbn. lia.
Qed.
Print Assumptions C74_second_refuted.
Theorem C74_cluster_refuted : exists s head, g_clusters s = [] /\ check_seek_head s true head = Ok [] /\ exists e p, In e (kids head) /\ leads (g_head s) e (c_id (mk cCluster)) p.
Proof.
  exists (mkSeg ex_seg None None None None None None (Some ex_seekhead) None []), (Master (ex_i cSeekHead 52) 0 [ex_seek [31; 67; 182; 117] 123]).
  split; [reflexivity|]. split; [vm_compute; reflexivity|]. exists (ex_seek [31; 67; 182; 117] 123), (52 + 123). split; [left; reflexivity|].
  split; [exists (ex_i cSeekID 0), [31; 67; 182; 117]; split; [apply first_find; reflexivity|]|exists (ex_i cSeekPosition 0), 123; split; [apply first_find; reflexivity|]; split; [lia|reflexivity]].
  change (c_id (mk cCluster)) with (be_val [31; 67; 182; 117]). apply ex_id; [repeat constructor; unfold is_byte; lia|lia].
Qed.
Print Assumptions C74_cluster_refuted.

(** ** C75 *)
(** CheckVideoTrack on a track with a Video element whose numbers are small. *)
Theorem C75_video : forall td prof track e v, elem cTrackEntry track -> first_of cVideo track e -> is_video e v -> (shrunk v -> v_dh v <> 0) ->
  exists l, check_video td prof track = Ok l /\ forall m, In m l <->
  (m = Err 0xE2 /\ v_unit v <> 0 /\ (none_of cDisplayWidth e \/ none_of cDisplayHeight e)) \/
  (m = Err 0xE7 /\ (v_dw v = 0 \/ v_dh v = 0)) \/
  (m = Err 0xE3 /\ shrunk v /\ tiny v /\ (reduced v \/ same_ratio v) /\ (prof = 8 \/ (reduced v /\ same_ratio v))) \/
  (m = Warn 0xE3 /\ shrunk v /\ ~ (tiny v /\ (reduced v \/ same_ratio v) /\ (prof = 8 \/ (reduced v /\ same_ratio v))) /\
     ~ (~ tiny v /\ ((prof = 8 /\ ~ reduced v /\ ~ same_ratio v) \/ (prof <> 8 /\ ((reduced v /\ ~ same_ratio v) \/ (~ reduced v /\ same_ratio v)))))) \/
  (m = Err 0xE4 /\ v_unit v = 3 /\ exists c, In c [cPixelCropTop; cPixelCropBottom; cPixelCropLeft; cPixelCropRight] /\ has_child c e) \/
  (m = Warn 0xE7 /\ v_unit v = 3 /\ (v_dw v = v_pw v \/ v_dh v = v_ph v)) \/
  (m = Err 0xE5 /\ v_unit v <> 3 /\ v_dh v <= v_top v + v_bottom v) \/
  (m = Err 0xE6 /\ v_unit v <> 3 /\ v_dw v <= v_left v + v_right v).
Proof.
  intros td prof track e v Ht Hf Hv Hz. exists (video_msgs prof e v). split; [apply video_ok; assumption|]. intros m.
  assert (L : listed cTrackEntry cVideo) by mk_side. assert (He : elem cVideo e). { destruct Hf as (a & b & Ek & Hc & _). apply (child_shaped cTrackEntry track cVideo e Ht L); [rewrite Ek; apply in_elt|exact Hc]. }
  rewrite (video_codes prof e v He m), <- ratio_error, <- ratio_quiet. assert (Q : points prof v <= 2 <-> ~ 2 < points prof v) by lia. rewrite Q. reflexivity.
Qed.
Print Assumptions C75_video.
Definition ex_vid (l : list elt) : elt := Master (ex_i cTrackEntry 0) 0 [ex_num cTrackType 1; Master (ex_i cVideo 0) 0 l].
Example C75_video_ex : is_video ex_video (mkVT 0 640 480 640 480 0 0 0 0) /\ ~ shrunk (mkVT 0 640 480 640 480 0 0 0 0) /\ elem cTrackEntry ex_track /\ first_of cVideo ex_track ex_video /\
  check_video ex_td 8 (ex_vid [ex_num cPixelWidth 1280; ex_num cPixelHeight 720; ex_num cDisplayWidth 16; ex_num cDisplayHeight 9; ex_num cPixelCropTop 9]) = Ok [Err 0xE3; Err 0xE5].
Proof.
  split; [|split; [|split; [apply elemb_ok; vm_compute; reflexivity|split; [apply first_find; reflexivity|vm_compute; reflexivity]]]].
  - unfold is_video. cbn [v_unit v_pw v_ph v_dw v_dh v_top v_bottom v_left v_right].
    split; [apply int_find; vm_compute; reflexivity|]. split; [apply int_find; vm_compute; reflexivity|]. split; [apply int_find; vm_compute; reflexivity|].
    split; [right; split; [apply none_find; vm_compute; reflexivity|reflexivity]|]. split; [right; split; [apply none_find; vm_compute; reflexivity|reflexivity]|].
    split; [apply int_find; vm_compute; reflexivity|]. split; [apply int_find; vm_compute; reflexivity|]. split; [apply int_find; vm_compute; reflexivity|]. split; [apply int_find; vm_compute; reflexivity|].
    repeat constructor; unfold small; lia.
  - intros (_ & H & _). cbn in H. lia.
Qed.
(** A video track without a Video element. *)
Theorem C75_no_video : forall td prof track, elem cTrackEntry track -> none_of cVideo track -> check_video td prof track = Ok [Err 0xE0].
Proof.
  intros td prof track He Hn. unfold check_video. assert (L : listed cTrackEntry cVideo) by mk_side. pose proof (lookup_ok cTrackEntry track cVideo He L) as H. destruct (lookup cVideo track) as [d|]; [|reflexivity].
  destruct H as [(a & b & Ek & Hc & _) _]. unfold none_of in Hn. rewrite Ek, Forall_app, Forall_cons_iff in Hn. exfalso. apply (proj1 (proj2 Hn)). exact Hc.
Qed.
Print Assumptions C75_no_video.
Example C75_no_video_ex : none_of cVideo (Master (ex_i cTrackEntry 0) 0 [ex_num cTrackType 1]) /\ elem cTrackEntry (Master (ex_i cTrackEntry 0) 0 [ex_num cTrackType 1]).
Proof. split; [apply none_find; reflexivity|apply elemb_ok; vm_compute; reflexivity]. Qed.
(** Findings.  A DisplayHeight of 0 makes the program divide by zero; outside WebM a plain half size, which
    has no sign of a ratio, gets the warning, and the same shape at half size does not. *)
Theorem C75_zero_refuted : check_video ex_td 8 (ex_vid [ex_num cPixelWidth 640; ex_num cPixelHeight 480; ex_num cDisplayWidth 320; ex_num cDisplayHeight 0]) = Bad.
Proof. vm_compute. reflexivity. Qed.
Print Assumptions C75_zero_refuted.
Theorem C75_sign_refuted :
  (let v := mkVT 0 640 480 320 200 0 0 0 0 in ~ reduced v /\ ~ same_ratio v /\ ~ tiny v /\
     check_video ex_td 2 (ex_vid [ex_num cPixelWidth 640; ex_num cPixelHeight 480; ex_num cDisplayWidth 320; ex_num cDisplayHeight 200]) = Ok [Warn 0xE3]) /\
  (let v := mkVT 0 640 480 320 240 0 0 0 0 in same_ratio v /\
     check_video ex_td 2 (ex_vid [ex_num cPixelWidth 640; ex_num cPixelHeight 480; ex_num cDisplayWidth 320; ex_num cDisplayHeight 240]) = Ok []).
Proof.
  split; cbv zeta; unfold reduced, same_ratio, tiny; cbn [v_pw v_ph v_dw v_dh].
  - split; [vm_compute; discriminate|]. split; [lia|]. split; [lia|]. vm_compute. reflexivity.
  - split; [lia|vm_compute; reflexivity].
Qed.
Print Assumptions C75_sign_refuted.

(** ** C76 *)
(** CheckTracks: what is reported about the tracks, when the default sampling frequency is not 0. *)
Theorem C76_tracks : forall td prof att tracks, (td 8000 <> 0 /\ td 8000 <> 2 ^ 63) -> elem cTracks tracks -> (forall a, att = Some a -> elem cAttachments a) ->
  (forall t, In t (kids tracks) -> of_class cTrackEntry t -> exists k name, int_is cTrackType t k /\ text_is cCodecID t name) ->
  exists l, check_tracks td prof att tracks = Ok l /\ forall m, In m l <-> exists t k name, In t (kids tracks) /\ of_class cTrackEntry t /\ int_is cTrackType t k /\ text_is cCodecID t name /\
    ((m = Warn 0x307 /\ exists b, In b name /\ 97 <= b <= 122) \/ (m = Warn 0x308 /\ ~ codec_name name) \/
     (m = Err 0x30A /\ k = 2 /\ zero_rate t) \/
     (m = Err 0x303 /\ prof = 8 /\ k = 2 /\ ~ same_text name VORBIS_NAME /\ ~ same_text name OPUS_NAME) \/
     (m = Err 0x304 /\ prof = 8 /\ k = 1 /\ ~ same_text name VP8_NAME /\ ~ same_text name VP9_NAME) \/
     (m = Err 0x302 /\ prof = 8 /\ k <> 1 /\ k <> 2) \/
     (m = Err 0x305 /\ att = None /\ has_child cAttachmentLink t) \/
     (m = Err 0x306 /\ exists a u, att = Some a /\ links_to t u /\ ~ attached a u)).
Proof.
  intros td prof att tracks Htd He Ha HT. assert (L : listed cTracks cTrackEntry) by mk_side. pose proof (fun t => all_of_ok _ tracks cTrackEntry t He L) as HA.
  assert (K : forall t, In t (all_of cTrackEntry tracks) -> elem cTrackEntry t). { intros t H. apply HA in H. apply (child_shaped cTracks tracks cTrackEntry t He L); apply H. }
  unfold check_tracks. destruct (each_ok (check_track td prof att) (all_of cTrackEntry tracks)) as (r & Hr & I).
  { intros t H. pose proof (proj1 (HA t) H) as Q. destruct (HT t) as (k & name & Hk & Hn); [apply Q|apply Q|]. destruct (track_ok td prof att t k name Htd (K t H) Ha Hk Hn) as (l & E & _). exists l. exact E. }
  exists r. split; [exact Hr|]. intros m. rewrite I. split.
  - intros (t & rt & H & E & Hm). pose proof (proj1 (HA t) H) as Q. destruct (HT t) as (k & name & Hk & Hn); [apply Q|apply Q|]. destruct (track_ok td prof att t k name Htd (K t H) Ha Hk Hn) as (l & E' & I'). rewrite E in E'. apply ok_inj in E'. subst l.
    exists t, k, name. split; [apply Q|]. split; [apply Q|]. split; [exact Hk|]. split; [exact Hn|]. apply I'. exact Hm.
  - intros (t & k & name & H1 & H2 & Hk & Hn & Hm). assert (H : In t (all_of cTrackEntry tracks)) by (apply HA; auto). destruct (track_ok td prof att t k name Htd (K t H) Ha Hk Hn) as (l & E' & I'). exists t, l. split; [exact H|]. split; [exact E'|]. apply I'. exact Hm.
Qed.
Print Assumptions C76_tracks.
Definition ex_audio (codec : list Z) (l : list elt) : elt := Master (ex_i cTrackEntry 0) 0 (ex_num cTrackNumber 1 :: ex_num cTrackType 2 :: ex_str cCodecID codec :: l).
Example C76_tracks_ex : elem cTracks ex_tracks /\ int_is cTrackType ex_track 1 /\ text_is cCodecID ex_track VP8_NAME /\ check_tracks ex_td 8 None ex_tracks = Ok [] /\
  check_tracks ex_td 8 None (Master (ex_i cTracks 0) 0 [ex_audio [97; 95; 65; 65; 67] [Master (ex_i cAudio 0) 0 [Leaf (ex_i cSamplingFrequency 0) (VFlt 0)]; ex_num cAttachmentLink 5]]) = Ok [Warn 0x307; Err 0x30A; Err 0x303; Err 0x305].
Proof.
  split; [apply elemb_ok; vm_compute; reflexivity|]. split; [apply int_find; vm_compute; reflexivity|]. split; [|split; vm_compute; reflexivity].
  left. exists (ex_i cCodecID 0), []. split; [apply first_find; vm_compute; reflexivity|]. repeat constructor.
Qed.
(** Findings.  An audio track without an Audio element is accepted, and so is a track without a CodecID but
    for a warning about its name (0x300 is never given). *)
Theorem C76_audio_refuted : none_of cAudio (ex_audio [65; 95; 79; 80; 85; 83] []) /\ check_tracks ex_td 8 None (Master (ex_i cTracks 0) 0 [ex_audio [65; 95; 79; 80; 85; 83] []]) = Ok [].
Proof. split; [apply none_find; reflexivity|vm_compute; reflexivity]. Qed.
Print Assumptions C76_audio_refuted.
Theorem C76_codec_refuted : check_tracks ex_td 2 None (Master (ex_i cTracks 0) 0 [Master (ex_i cTrackEntry 0) 0 [ex_num cTrackNumber 1; ex_num cTrackType 1]]) = Ok [Warn 0x308].
Proof. vm_compute. reflexivity. Qed.
Print Assumptions C76_codec_refuted.

(** ** C77 *)
(** CheckLacingKeyframe with the table of tracks of main: blocks of unknown tracks, laced blocks of tracks
    without lacing, blocks that must be key frames; the bytes of every track are added up. *)
Theorem C77_blocks : forall td prof tracks mx vd m0 ti mx' vd' cl bl, Forall (elem cTrackEntry) tracks ->
  Forall (fun t => exists v, child_int cTrackNumber t v /\ 0 <= v < 2 ^ 31) tracks ->
  (forall a t b t' c n, tracks = a ++ t :: b ++ t' :: c -> child_int cTrackNumber t n -> ~ child_int cTrackNumber t' n) ->
  scan_tracks td prof tracks mx vd = Ok (m0, ti, mx', vd') -> Forall2 seen cl bl -> Forall low_track (concat bl) ->
  exists ms ti', check_lacing td prof tracks ti cl = Ok (ms, ti') /\
    Forall2 (fun t x => child_int cTrackNumber t (ti_num x) /\ ti_len x = total (ti_num x) (concat bl)) tracks ti' /\
    forall m, In m ms <->
     (m = Err 0xB2 /\ exists b, In b (concat bl) /\ ~ nums tracks (vb_track b)) \/
     (m = Err 0xB0 /\ exists b t, In b (concat bl) /\ vb_laced b = true /\ track_of tracks (vb_track b) t /\ int_is cFlagLacing t 0) \/
     (m = Err 0xB1 /\ exists b t, In b (concat bl) /\ vb_key b = false /\ track_of tracks (vb_track b) t /\ all_keys t).
Proof. exact lacing_all. Qed.
Print Assumptions C77_blocks.
Definition ex_sub : elt := Master (ex_i cTrackEntry 0) 0 [ex_num cTrackNumber 2; ex_num cTrackType 17; ex_num cFlagLacing 0].
Definition ex_vb (n : Z) (laced key : bool) (lens : list Z) : vitem := VSimple (mkVB n laced key lens (ex_tb 0)).
Example C77_blocks_ex : Forall (elem cTrackEntry) [ex_track; ex_sub] /\ child_int cTrackNumber ex_track 1 /\ child_int cTrackNumber ex_sub 2 /\
  scan_tracks ex_td 8 [ex_track; ex_sub] 0 false = Ok ([], [mkTI 1 0; mkTI 2 0], 2, true) /\
  check_lacing ex_td 8 [ex_track; ex_sub] [mkTI 1 0; mkTI 2 0] [ex_cluster 0 0 [ex_vb 1 false true [10]; VGroup [None; Some (mkVB 1 false false [5; 6] (ex_tb 0))]; ex_vb 2 true false [7]; VOther; ex_vb 3 false true [9]]]
    = Ok ([Err 0xB0; Err 0xB1; Err 0xB2], [mkTI 1 21; mkTI 2 7]).
Proof.
  split; [repeat (constructor; [apply elemb_ok; vm_compute; reflexivity|]); constructor|]. split; [eexists; apply first_find; vm_compute; reflexivity|]. split; [eexists; apply first_find; vm_compute; reflexivity|]. split; vm_compute; reflexivity.
Qed.
(** The table itself: the largest number, and whether there is video. *)
Theorem C77_table : forall td prof tracks, Forall (elem cTrackEntry) tracks -> Forall (fun t => exists v, child_int cTrackNumber t v /\ 0 <= v < 2 ^ 31) tracks ->
  forall mx vd m ti mx' vd', scan_tracks td prof tracks mx vd = Ok (m, ti, mx', vd') ->
  (forall n, nums tracks n <-> In n (map ti_num ti)) /\ mx <= mx' /\ (forall n, nums tracks n -> n <= mx') /\
  (vd' = true <-> vd = true \/ exists t, In t tracks /\ child_int cTrackType t 1).
Proof.
  intros td prof tracks HE HN mx vd m ti mx' vd' H. destruct (scan_ok td prof tracks HE HN _ _ _ _ _ _ H) as (T & H1 & H2 & H3). pose proof (table_nums _ _ T) as TN.
  split; [intros n; symmetry; apply TN|]. split; [exact H1|]. split; [|exact H3]. intros n Hn. apply TN in Hn. apply in_map_iff in Hn. destruct Hn as (x & <- & Hx). rewrite Forall_forall in H2. apply H2. exact Hx.
Qed.
Print Assumptions C77_table.
Example C77_table_ex : Forall (elem cTrackEntry) [ex_track; ex_sub] /\ Forall (fun t => exists v, child_int cTrackNumber t v /\ 0 <= v < 2 ^ 31) [ex_track; ex_sub].
Proof.
  split; [repeat (constructor; [apply elemb_ok; vm_compute; reflexivity|]); constructor|]. constructor; [exists 1|constructor; [exists 2|constructor]]; (split; [eexists; apply first_find; vm_compute; reflexivity|lia]).
Qed.
(** CheckPosSize: the positions and sizes the clusters tell. *)
Theorem C77_positions : forall head, 0 <= position_data head < 2 ^ 62 -> forall l, Forall cluster_ok l -> exists r, check_pos_size head None l = Ok r /\ forall m, In m r <->
  (m = Err 0xA0 /\ exists c b v, l = c :: b /\ child_int cPrevSize (vc_elt c) v) \/
  (m = Err 0xA1 /\ exists a p c b v, l = a ++ p :: c :: b /\ child_int cPrevSize (vc_elt c) v /\ v <> e_epos (einfo (vc_elt c)) - e_epos (einfo (vc_elt p))) \/
  (m = Err 0xA2 /\ exists c v, In c l /\ child_int cPosition (vc_elt c) v /\ v <> e_epos (einfo (vc_elt c)) - position_data head).
Proof.
  intros head Hh l Hl. destruct (pos_size_gen head Hh l None Hl) as (r & E & I); [discriminate|]. exists r. split; [exact E|]. intros m. rewrite I. clear. split.
  - intros [(-> & _ & H)|[(-> & [(p & _ & _ & _ & [=] & _)|H])|H]]; [left; auto|right; left; auto|right; right; exact H].
  - intros [(-> & H)|[(-> & H)|H]]; [left; auto|right; left; split; [reflexivity|right; exact H]|right; right; exact H].
Qed.
Print Assumptions C77_positions.
Definition ex_pos (p : Z) (l : list elt) : vclus := mkVC (Master (ex_i cCluster p) 0 l) [] (mkCl (Some 0) INVALID_TIMESTAMP None None).
Example C77_positions_ex : Forall cluster_ok [ex_pos 100 [ex_num cPosition 48]; ex_pos 300 [ex_num cPrevSize 200; ex_num cPosition 248]] /\ position_data ex_seg = 52 /\
  check_pos_size ex_seg None [ex_pos 100 [ex_num cPosition 48]; ex_pos 300 [ex_num cPrevSize 200; ex_num cPosition 248]] = Ok [] /\
  check_pos_size ex_seg None [ex_pos 100 [ex_num cPrevSize 48]; ex_pos 300 [ex_num cPrevSize 201; ex_num cPosition 249]] = Ok [Err 0xA0; Err 0xA1; Err 0xA2].
Proof.
  split; [repeat (constructor; [split; [apply elemb_ok; vm_compute; reflexivity|unfold placed; cbn; lia]|]); constructor|]. split; [vm_compute; reflexivity|]. split; vm_compute; reflexivity.
Qed.
(** CheckVideoStart: cluster times, tracks beyond the table, and video that does not start with a key frame. *)
Theorem C77_video_start : forall td prof tracks count, Forall (elem cTrackEntry) tracks -> 0 <= count -> (forall t n, In t tracks -> int_is cTrackNumber t n -> 0 <= n < 2 ^ 15 -> n < count) ->
  forall fuel, count < 2 ^ 16 -> (Z.to_nat count <= fuel)%nat -> forall cl bl, Forall2 seen cl bl -> Forall low_track (concat bl) ->
  exists r, check_video_start td fuel prof tracks count INVALID_TIMESTAMP cl = Ok r /\ forall m, In m r <->
    (m = Err 0xC1 /\ exists c, In c cl /\ ctime c = INVALID_TIMESTAMP) \/
    (m = Warn 0xC2 /\ exists a p c b, cl = a ++ p :: c :: b /\ ctime c <> INVALID_TIMESTAMP /\ ctime p <> INVALID_TIMESTAMP /\ ctime c <= ctime p) \/
    (m = Lost 0xC3 /\ exists b, In b (concat bl) /\ count < vb_track b) \/
    (m = Warn 0xC0 /\ exists c l n, In c cl /\ seen c l /\ e_epos (einfo (vc_elt c)) <> 0 /\ 0 <= n < count /\ n < 2 ^ 15 /\ video_num tracks n /\ late_key l n).
Proof.
  intros td prof tracks count HT HC HM fuel Hc Hf cl bl HB HL. pose proof (blocks_seen _ _ HB) as EB.
  assert (HL' : Forall (fun c => Forall low_track (cluster_blocks c)) cl). { apply Forall_forall. intros c Hin. apply Forall_forall. intros b Hb. rewrite Forall_forall in HL. apply HL. rewrite <- EB. apply in_flat_map. exists c. auto. }
  destruct (video_start_ok td prof tracks count HT HC HM fuel Hc Hf cl INVALID_TIMESTAMP HL') as (r & E & I). exists r. split; [exact E|]. intros m. rewrite I. clear I.
  assert (B : (exists c b, In c cl /\ In b (cluster_blocks c) /\ count < vb_track b) <-> (exists b, In b (concat bl) /\ count < vb_track b)).
  { rewrite <- EB. split; [intros (c & b & H1 & H2 & H3); exists b; split; [apply in_flat_map; exists c; auto|exact H3]|]. intros (b & H1 & H2). apply in_flat_map in H1. destruct H1 as (c & H1 & H3). exists c, b. auto. }
  rewrite B. assert (S : forall c l, seen c l <-> l = cluster_blocks c). { intros c l. pose proof (seen_ok c) as Q. unfold seen in *. rewrite Q. reflexivity. }
  split.
  - intros [H|[(-> & [(_ & _ & _ & _ & H & _)|H])|[H|(-> & c & n & H)]]]; [left; exact H|contradiction|right; left; auto|right; right; left; exact H|]. right; right; right. split; [reflexivity|]. exists c, (cluster_blocks c), n. rewrite S. intuition.
  - intros [H|[(-> & H)|[H|(-> & c & l & n & H1 & H2 & H)]]]; [left; exact H|right; left; auto|right; right; left; exact H|]. right; right; right. split; [reflexivity|]. apply S in H2. subst l. exists c, n. split; [exact H1|exact H].
Qed.
Print Assumptions C77_video_start.
Example C77_video_start_ex : int_is cTrackNumber ex_track 1 /\ 
  check_video_start ex_td 100 8 [ex_track] 2 INVALID_TIMESTAMP [ex_clus; ex_cluster 500 7 [ex_vb 1 false false [3]; ex_vb 1 false true [3]; ex_vb 5 false true [3]]] = Ok [Warn 0xC2; Lost 0xC3; Warn 0xC0].
Proof. split; [apply int_find; vm_compute; reflexivity|vm_compute; reflexivity]. Qed.
(** Findings.  With a track number of 65535 or more the check does not end (its counter has 16 bits). *)
Theorem C77_endless_refuted : forall td fuel prof tracks count prev c l, 2 ^ 16 <= count -> vc_items c = [] -> check_video_start td fuel prof tracks count prev (c :: l) = Fuel.
Proof.
  intros td fuel prof tracks count prev c l Hc Hi. cbn [check_video_start]. rewrite Hi. cbv zeta. cbn [video_items bind fst snd]. rewrite no_end; [reflexivity| |lia]. unfold zlen. rewrite repeat_length. lia.
Qed.
Print Assumptions C77_endless_refuted.
Example C77_endless_ex : scan_tracks ex_td 8 [Master (ex_i cTrackEntry 0) 0 [ex_num cTrackNumber 65535; ex_num cTrackType 17]] 0 false = Ok ([], [mkTI 65535 0], 65535, false).
Proof. vm_compute. reflexivity. Qed.
(** The numbers of blocks have 16 bits with a sign: the blocks of track 40000 are of an unknown track. *)
Theorem C77_number_refuted : exists t, child_int cTrackNumber t 40000 /\ check_lacing ex_td 8 [t] [mkTI 40000 0] [ex_cluster 0 0 [ex_vb 40000 false true [1]]] = Ok ([Err 0xB2], [mkTI 40000 0]).
Proof. exists (Master (ex_i cTrackEntry 0) 0 [ex_num cTrackNumber 40000]). split; [eexists; apply first_find; vm_compute; reflexivity|vm_compute; reflexivity]. Qed.
Print Assumptions C77_number_refuted.
(** Clusters with blocks but no Tracks make it use a null pointer. *)
Theorem C77_untracked_refuted : validate ex_td 100 ex_o ex_untracked = Null.
Proof. vm_compute. reflexivity. Qed.
Print Assumptions C77_untracked_refuted.

(** ** C78 *)
(** CheckCueEntries: cue points without a block of that track and time, and cue points out of order. *)
Theorem C78_cues : forall s g inf cues, g_info g = Some inf -> elem cInfo inf -> elem cCues cues -> int_is cTimestampScale inf s -> scale_ok s ->
  g_clusters g <> [] -> Forall (timed_cluster s) (g_clusters g) ->
  Forall (fun e => exists t n p, is_cue mk (mkCue e (Some s)) t n p /\ n < 2 ^ 15) (kids_of cCuePoint cues) ->
  exists r, check_cues g cues = Ok r /\ forall m, In m r <->
    (m = Err 0x312 /\ exists e t n p, In e (kids_of cCuePoint cues) /\ is_cue mk (mkCue e (Some s)) t n p /\ forall c, In c (g_clusters g) -> ~ points_at s t n c) \/
    (m = Warn 0x311 /\ exists a e e' b t n p t' n' p', kids_of cCuePoint cues = a ++ e :: e' :: b /\ is_cue mk (mkCue e (Some s)) t n p /\ is_cue mk (mkCue e' (Some s)) t' n' p' /\ t' < t /\ t <> INVALID_TIMESTAMP).
Proof. exact cues_ok. Qed.
Print Assumptions C78_cues.
Definition ex_point (t n p : Z) : elt := Master (ex_i cCuePoint 0) 0 [ex_num cCueTime t; Master (ex_i cCueTrackPositions 0) 0 [ex_num cCueTrack n; ex_num cCueClusterPosition p]].
Definition ex_cues (l : list elt) : elt := Master (ex_i cCues 0) 0 l.
Lemma ex_first id l d : find (fun x => eid_of mk (einfo x) =? id) l = Some d -> first_elt mk id l d.
Proof.
  unfold first_elt, has_id. induction l as [|x l IH]; cbn [find]; [discriminate|]. destruct (Z.eqb_spec (eid_of mk (einfo x)) id) as [E|E].
  - intros [= <-]. exists [], l. split; [reflexivity|]. split; [exact E|constructor].
  - intros H. destruct (IH H) as (a & b & -> & H1 & H2). exists (x :: a), b. split; [reflexivity|]. split; [exact H1|]. constructor; assumption.
Qed.
Lemma ex_point_ok t n p : 0 <= t < 2 ^ 40 -> 0 <= n < 2 ^ 16 -> is_cue mk (mkCue (ex_point t n p) (Some 1000000)) (t * 1000000) n p.
Proof.
  intros Ht Hn. unfold is_cue. cbn [q_elt q_seg]. change (seg_scale (Some 1000000)) with 1000000. eexists _, _, _. split; [reflexivity|]. split; [vm_compute; reflexivity|]. split.
  - eexists _, t. split; [apply ex_first; reflexivity|]. split; [reflexivity|lia].
  - eexists _, _, _. split; [apply ex_first; reflexivity|]. split; [eexists _, n; split; [apply ex_first; reflexivity|]; split; [reflexivity|exact Hn]|eexists; apply ex_first; reflexivity].
Qed.
Definition ex_cued : seg := mkSeg ex_seg (Some ex_info) (Some ex_tracks) None None None None None None [ex_clus].
Example C78_cues_ex : elem cInfo ex_info /\ int_is cTimestampScale ex_info 1000000 /\ scale_ok 1000000 /\ timed_cluster 1000000 ex_clus /\ elem cCues (ex_cues [ex_point 7 1 300; ex_point 27 1 300]) /\
  Forall (fun e => exists t n p, is_cue mk (mkCue e (Some 1000000)) t n p /\ n < 2 ^ 15) (kids_of cCuePoint (ex_cues [ex_point 7 1 300; ex_point 27 1 300])) /\
  check_cues ex_cued (ex_cues [ex_point 7 1 300; ex_point 27 1 300]) = Ok [] /\ check_cues ex_cued (ex_cues [ex_point 27 1 300; ex_point 7 2 300]) = Ok [Warn 0x311; Err 0x312].
Proof.
  split; [apply elemb_ok; vm_compute; reflexivity|]. split; [apply int_find; vm_compute; reflexivity|]. split; [split; [lia|vm_compute; reflexivity]|].
  split; [|split; [apply elemb_ok; vm_compute; reflexivity|split; [|split; vm_compute; reflexivity]]].
  - exists 7000000. split; [eexists; vm_compute; reflexivity|]. split; [unfold big; lia|].
    assert (H : forall n m loc, -32768 <= loc <= 32767 -> timed 7000000 1000000 (n, m, (1, ex_tb loc))).
    { intros n m loc Hl. split; [cbn; lia|]. exists (7000000 + loc * 1000000). split; [|unfold big; lia]. repeat split; try reflexivity; cbn; lia. }
    constructor; [apply H; lia|constructor; [apply H; lia|constructor]].
  - change (kids_of cCuePoint (ex_cues [ex_point 7 1 300; ex_point 27 1 300])) with [ex_point 7 1 300; ex_point 27 1 300].
    constructor; [|constructor; [|constructor]]; (eexists _, _, _; split; [apply ex_point_ok; lia|lia]).
Qed.
(** Finding: the position of the cluster a cue point leads to is not looked at. *)
Theorem C78_position_refuted : forall p, check_cues ex_cued (ex_cues [ex_point 7 1 p]) = Ok [].
Proof. intros p. vm_compute. reflexivity. Qed.
Print Assumptions C78_position_refuted.

(** ** C79 *)
(** CheckUnknownElements: the warning tells that there are unknown elements. *)
Theorem C79_unknown : forall e, shaped e -> forall m, In m (fst (check_unknown e)) <-> m = Warn 12 /\ unknown_in e.
Proof. exact unknown_ok. Qed.
Print Assumptions C79_unknown.
Definition ex_odd : elt := Leaf (mkInfo (Dummy 0x4FFF) true false true 3 0 1 0 2 6) VNone.
Definition ex_void (n : Z) : elt := Leaf (mkInfo (Known cEbmlVoid) true false true n 0 1 0 2 (n + 2)) VNone.
Example C79_unknown_ex : shaped (Master (ex_i cInfo 0) 0 [ex_void 5; ex_str cTitle [97]; ex_odd]) /\ check_unknown (Master (ex_i cInfo 0) 0 [ex_void 5; ex_str cTitle [97]; ex_odd]) = ([Warn 12], 7).
Proof. split; [apply shapedb_ok; vm_compute; reflexivity|vm_compute; reflexivity]. Qed.
(** The void data are counted when a master has at most one void, as its first child. *)
Theorem C79_void : forall e, shaped e -> void_first e -> snd (check_unknown e) = voids e.
Proof. exact void_ok. Qed.
Print Assumptions C79_void.
Example C79_void_ex : void_first (Master (ex_i cInfo 0) 0 [ex_void 5; ex_str cTitle [97]]) /\ voids (Master (ex_i cInfo 0) 0 [ex_void 5; ex_str cTitle [97]]) = 7.
Proof. split; [|vm_compute; reflexivity]. constructor; [constructor|]. constructor; [|constructor]. split; [discriminate|constructor]. Qed.
(** Finding: a later void replaces what was counted before. *)
Theorem C79_void_refuted : exists e, shaped e /\ voids e = 25 /\ snd (check_unknown e) = 18.
Proof. exists (Master (ex_i cInfo 0) 0 [ex_void 5; ex_void 16]). split; [apply shapedb_ok; vm_compute; reflexivity|]. split; vm_compute; reflexivity. Qed.
Print Assumptions C79_void_refuted.
