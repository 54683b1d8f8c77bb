(** C61-C65. *)
From Verif Require Import Base BaseProofs FinderSpec Vint EbmlId Ebml Tree TreeRead Create CreateProofs Arr Stream Frame IntEltProofs StreamProofs Block TreeProofs2 BlockSpec BlockProofs BlockProofs4 PropBlock BlockTime BlockTimeProofs Cues CuesSpec CuesProofs CuesProofs2 Tracks TracksSpec TracksProofs TracksProofs2 TracksProofs3.

Definition void : schema := fun _ => mkCtx 236 KVoid None None [].
Definition inf0 (c : Z) : info := mkInfo (Known c) true false true 0 0 0 0 0 0.
Definition lf (c v : Z) : elt := Leaf (inf0 c) (VInt v).
Lemma s32_ok x : - 2 ^ 31 <= x < 2 ^ 31 -> s32 x = x.
Proof. intros H. unfold s32. apply s_wrap_small; [lia|change (32 - 1) with 31; lia]. Qed.

(** ** C61 *)
(** MATROSKA_TrackSetCompressionAlgo: the answer tells whether the track had ContentEncodings, the track
    declares that compression and no other, its other children are the same, and
    MATROSKA_TrackGetBlockCompression gives the algorithm when the scope has the frames, NONE otherwise. *)
Theorem C61_set_algo : forall rest td fuel prof scope algo t, (2 <= fuel)%nat -> plain_track (T rest) t -> 0 < scope < 2 ^ 32 -> - 2 ^ 31 <= algo < 2 ^ 31 ->
  exists had t', set_algo rest td fuel prof scope algo t = Ok (had, t') /\ (had = true <-> exists d, In d (kids t) /\ has_id (T rest) 28032 d) /\
    declares (T rest) t' scope algo None /\ others (T rest) 28032 (kids t) (kids t') /\ e_kind (einfo t') = e_kind (einfo t) /\
    forall prof', get_compression rest td fuel prof' t' = Ok (if Z.odd scope then algo else -1).
Proof.
  intros rest td fuel prof scope algo t Hf Ht Hs Ha. destruct (set_none_ok rest t Ht) as (_ & _ & _ & _ & _ & _ & _ & Hh).
  destruct (set_algo_ok rest td fuel prof scope algo t Hf Ht) as (t' & E & Hd & Ho & i & k & ch & -> & Hk); try lia.
  exists (fst (set_none rest t)), (Master i k ch). split; [exact E|]. split; [exact Hh|]. split; [exact Hd|]. split; [exact Ho|]. split; [exact Hk|].
  intros prof'. rewrite (declares_get rest td fuel prof' _ _ _ _ Hd), (s32_ok algo Ha). reflexivity.
Qed.
Print Assumptions C61_set_algo.
Definition ex_enc (scope algo : Z) : elt := Master (inf0 4) 0 [Master (inf0 5) 0 [lf 7 scope; Master (inf0 9) 0 [lf 10 algo]]].
Definition ex_track : elt := Master (inf0 1) 0 [lf 2 7; ex_enc 1 0; Leaf (inf0 3) (VBin [1; 2; 3])].
Example C61_set_algo_ex : plain_track (T void) ex_track /\
  match set_algo void (fun x => x) 2 8 3 2 ex_track with
  | Ok (had, t) => had = true /\ zlen (kids t) = 3 /\ get_compression void (fun x => x) 2 8 t = Ok 2
  | _ => False
  end /\ get_compression void (fun x => x) 2 8 ex_track = Ok 0.
Proof.
  split; [|vm_compute; repeat split].
  eexists _, _, _. split; [reflexivity|]. right. exists (ex_enc 1 0), [lf 2 7], [Leaf (inf0 3) (VBin [1; 2; 3])]. split; [reflexivity|]. split; [reflexivity|].
  repeat constructor; intros X; discriminate X.
Qed.

(** MATROSKA_TrackSetCompressionHeader: every function that handles frames then takes [h] off them or puts
    it back, whatever it answers for compressions it does not understand. *)
Theorem C61_set_header : forall rest td fuel prof h t, (2 <= fuel)%nat -> plain_track (T rest) t -> h <> [] ->
  exists had t' en, set_header rest td fuel prof (Some h) t = Ok (had, t') /\ (had = true <-> exists d, In d (kids t) /\ has_id (T rest) 28032 d) /\
    declares (T rest) t' 1 3 (Some h) /\ others (T rest) 28032 (kids t) (kids t') /\ e_kind (einfo t') = e_kind (einfo t) /\
    (forall prof', get_compression rest td fuel prof' t' = Ok COMP_HEADERSTRIP) /\
    encodings_of rest t' = Ok en /\ forall e1 e2 e3, find_header e1 e2 e3 en = Ok (inr (Strip h, 1)) /\ strip_of (Strip h) 1 = h.
Proof.
  intros rest td fuel prof h t Hf Ht Hh. destruct (set_none_ok rest t Ht) as (_ & _ & _ & _ & _ & _ & _ & Hha).
  destruct (set_header_ok rest td fuel prof h t Hf Ht Hh) as (t' & E & Hd & Ho & i & k & ch & -> & Hk).
  eexists (fst (set_none rest t)), (Master i k ch), _. split; [exact E|]. split; [exact Hha|]. split; [exact Hd|]. split; [exact Ho|]. split; [exact Hk|].
  split; [intros prof'; exact (declares_get rest td fuel prof' _ _ _ _ Hd)|]. split; [exact (declares_encodings rest _ _ _ _ Hd)|].
  intros e1 e2 e3. split; reflexivity.
Qed.
Print Assumptions C61_set_header.
Example C61_set_header_ex : match set_header void (fun x => x) 2 1 (Some [11; 12]) ex_track with
  | Ok (had, t) => had = true /\ zlen (kids t) = 3 /\ encodings_of void t = Ok (Some [mkEnc true (Some 1) (Some (mkCompr (Some 3) (Some [11; 12])))])
  | _ => False
  end.
Proof. vm_compute. repeat split. Qed.

(** Taking the compression away: MATROSKA_TrackSetCompressionNone, a scope of 0, no header or an empty one. *)
Theorem C61_off : forall rest td fuel prof algo t, plain_track (T rest) t ->
  exists had t', set_none rest t = (had, t') /\ set_algo rest td fuel prof 0 algo t = Ok (had, t') /\
    set_header rest td fuel prof None t = Ok (had, t') /\ set_header rest td fuel prof (Some []) t = Ok (had, t') /\
    (had = true <-> exists d, In d (kids t) /\ has_id (T rest) 28032 d) /\ (had = false -> t' = t) /\
    uncompressed (T rest) t' /\ others (T rest) 28032 (kids t) (kids t') /\
    (forall prof', get_compression rest td fuel prof' t' = Ok COMP_NONE) /\ encodings_of rest t' = Ok None.
Proof.
  intros rest td fuel prof algo t Ht. destruct (set_none_ok rest t Ht) as (i & k & ch & E & Hn & Ho & _ & Hh).
  unfold set_algo, set_header. pose proof (eq_refl : set_none rest t = set_none rest t) as Es. unfold set_none in Es at 2.
  destruct (set_none rest t) as [had t']. cbn [fst snd] in *. subst t'. exists had, (Master i k ch). do 4 (split; [reflexivity|]). split; [exact Hh|].
  split. { destruct (child rest ID_ContentEncodings t); injection Es as -> E2; [discriminate|intros _; exact E2]. }
  split; [exact Hn|]. split; [exact Ho|]. unfold get_compression, encodings_of, child. cbn [children]. change ID_ContentEncodings with 28032.
  rewrite (find_no rest 28032 ch Hn). split; [intros _|]; reflexivity.
Qed.
Print Assumptions C61_off.
Example C61_off_ex : fst (set_none void ex_track) = true /\ kids (snd (set_none void ex_track)) = [lf 2 7; Leaf (inf0 3) (VBin [1; 2; 3])].
Proof. vm_compute. repeat split. Qed.

(** Asking again gives the same answer although the first question may add elements to the track. *)
Theorem C61_ask_again : forall rest td fuel prof t v, get_compression rest td fuel prof t = Ok v ->
  exists t', touch_compression rest td fuel prof t = Ok t' /\ get_compression rest td fuel prof t' = Ok v.
Proof. exact touch_get. Qed.
Print Assumptions C61_ask_again.
Definition ex_bare : elt := Master (inf0 1) 0 [Master (inf0 4) 0 [Master (inf0 5) 0 [Master (inf0 9) 0 []]]].
Example C61_ask_again_ex : get_compression void (fun x => x) 2 1 ex_bare = Ok 0 /\
  match touch_compression void (fun x => x) 2 1 ex_bare with Ok t => t <> ex_bare /\ get_compression void (fun x => x) 2 1 t = Ok 0 | _ => False end.
Proof. split; [vm_compute; reflexivity|]. vm_compute. split; [discriminate|reflexivity]. Qed.
(** Finding: it does add elements, and the frames of a track with an empty ContentEncoding, read as plain
    before, are refused after the question. *)
Theorem C61_ask_changes_refuted : exists t t', touch_compression void (fun x => x) 2 1 t = Ok t' /\ get_compression void (fun x => x) 2 1 t = Ok COMP_NONE /\
  (exists en, encodings_of void t = Ok en /\ find_header 1 2 3 en = Ok (inr (NoHeader, 1))) /\
  exists en, encodings_of void t' = Ok en /\ find_header 1 2 3 en = Ok (inl 2).
Proof.
  exists (Master (inf0 1) 0 [Master (inf0 4) 0 [Master (inf0 5) 0 []]]). eexists. split; [vm_compute; reflexivity|]. split; [vm_compute; reflexivity|].
  split; eexists; split; vm_compute; reflexivity.
Qed.
Print Assumptions C61_ask_changes_refuted.
(** Finding: with two ContentEncodings one stays, and the compression with it. *)
Theorem C61_two_encodings_refuted : exists t, set_none void t = (true, Master (with_need (inf0 1) true) 0 [ex_enc 1 2]) /\
  get_compression void (fun x => x) 2 1 (snd (set_none void t)) = Ok 2.
Proof. exists (Master (inf0 1) 0 [ex_enc 1 0; ex_enc 1 2]). split; vm_compute; reflexivity. Qed.
Print Assumptions C61_two_encodings_refuted.

(** ** C62 *)
(** Built without zlib: when the codec private data of a track are plain, computing its size takes them out
    of the scope of a compression asked for; the frames stay in it. *)
Theorem C62_plain : forall rest td fuel prof t scope algo st, declares (T rest) (t_elt t) scope algo st -> 0 <= scope < 2 ^ 32 -> - 2 ^ 31 <= algo < 2 ^ 31 -> algo <> COMP_NONE ->
  t_private t = COMP_NONE ->
  exists t', update_private rest t = Ok t' /\ t_private t' = COMP_NONE /\ private_algo rest (t_elt t') = Ok COMP_NONE /\
    declares (T rest) (t_elt t') (if Z.testbit scope 1 then scope - 2 else scope) algo st /\ others (T rest) 28032 (kids (t_elt t)) (kids (t_elt t')) /\
    get_compression rest td fuel prof (t_elt t') = get_compression rest td fuel prof (t_elt t).
Proof.
  intros rest td fuel prof t scope algo st Hd Hs Ha Hn Hp. unfold update_private. pose proof (declares_private rest _ _ _ _ Hd) as Hpa. rewrite Hpa. cbn [bind].
  rewrite Hp, (s32_ok algo Ha) in *. destruct (Z.testbit scope 1) eqn:Eb.
  - rewrite (proj2 (Z.eqb_neq _ _) Hn). change (COMP_NONE =? COMP_NONE) with true. cbv iota.
    assert (X : Z.lxor scope 2 = scope - 2).
    { replace (scope - 2) with (Z.ldiff scope 2).
      - apply Z.bits_inj'. intros n Hn0. rewrite Z.lxor_spec, Z.ldiff_spec. destruct (Z.eq_dec n 1) as [->|Hne]; [rewrite Eb; reflexivity|].
        change 2 with (2 ^ 1). rewrite Z.pow2_bits_false by lia. destruct (Z.testbit scope n); reflexivity.
      - assert (H2 : Z.land scope 2 = 2).
        { apply Z.bits_inj'. intros n Hn0. rewrite Z.land_spec. destruct (Z.eq_dec n 1) as [->|Hne]; [rewrite Eb; reflexivity|].
          change 2 with (2 ^ 1). rewrite Z.pow2_bits_false by lia. apply andb_false_r. }
        rewrite <- (Z.sub_nocarry_ldiff scope 2); [reflexivity|]. apply Z.bits_inj'. intros n Hn0. rewrite Z.ldiff_spec, Z.bits_0.
        destruct (Z.eq_dec n 1) as [->|Hne]; [rewrite Eb; reflexivity|]. change 2 with (2 ^ 1). rewrite Z.pow2_bits_false by lia. reflexivity. }
    destruct (flip_ok rest _ _ _ _ Hd) as (e' & -> & Hd' & Ho); [rewrite X; lia|]. cbn [bind]. rewrite X in Hd'. eexists. split; [reflexivity|]. cbn [t_elt t_private].
    split; [reflexivity|]. split; [|split; [exact Hd'|split; [exact Ho|]]].
    + rewrite (declares_private rest _ _ _ _ Hd'), <- X, Z.lxor_spec, Eb. reflexivity.
    + rewrite (declares_get rest td fuel prof _ _ _ _ Hd'), (declares_get rest td fuel prof _ _ _ _ Hd). rewrite Z.odd_sub. change (Z.odd 2) with false. rewrite xorb_false_r. reflexivity.
  - change (-1 =? COMP_NONE) with true. cbv iota. exists t. split; [reflexivity|]. split; [exact Hp|]. split; [exact Hpa|]. split; [exact Hd|]. split; [reflexivity|reflexivity].
Qed.
Print Assumptions C62_plain.
Definition declares_ex scope algo : declares (T void) (Master (inf0 1) 0 [lf 2 7; ex_enc scope algo; Leaf (inf0 3) (VBin [1; 2; 3])]) scope algo None.
Proof.
  eexists _, _, _, _, _, _. split; [exists [lf 2 7], [Leaf (inf0 3) (VBin [1; 2; 3])]; split; [reflexivity|]; split; [reflexivity|]; repeat constructor; intros X; discriminate X|].
  split; [reflexivity|]. split; [reflexivity|]. cbn [kids].
  split; [eexists [], _; split; [reflexivity|]; split; [reflexivity|]; repeat constructor; intros X; discriminate X|].
  split; [eexists [_], _; split; [reflexivity|]; split; [reflexivity|]; repeat constructor; intros X; discriminate X|].
  split; [eexists _, [], _; split; [reflexivity|]; split; [reflexivity|]; constructor|]. repeat constructor; intros X; discriminate X.
Qed.
Example C62_plain_ex : declares (T void) (Master (inf0 1) 0 [lf 2 7; ex_enc 3 0; Leaf (inf0 3) (VBin [1; 2; 3])]) 3 0 None /\
  match update_private void (mkTrack (Master (inf0 1) 0 [lf 2 7; ex_enc 3 0]) COMP_NONE) with
  | Ok t => get_compression void (fun x => x) 2 1 (t_elt t) = Ok 0 /\ private_algo void (t_elt t) = Ok (-1) | _ => False end.
Proof. split; [apply declares_ex|]. vm_compute. split; reflexivity. Qed.
(** A track that was read keeps what it declares as long as nobody changes it. *)
Theorem C62_as_read : forall rest e t, read_track rest e = Ok t -> update_private rest t = Ok t /\ t_elt t = e.
Proof.
  intros rest e t H. unfold read_track in H. destruct (private_algo rest e) as [| | |a] eqn:E; cbn [bind] in H; try discriminate. injection H as <-.
  unfold update_private. cbn [t_elt t_private]. rewrite E. cbn [bind]. rewrite Z.eqb_refl. split; reflexivity.
Qed.
Print Assumptions C62_as_read.
Example C62_as_read_ex : exists t, read_track void ex_track = Ok t /\ t_private t = COMP_NONE.
Proof. eexists. split; [vm_compute; reflexivity|]. reflexivity. Qed.
(** Finding: the data of a new track count as compressed with zlib (the field is 0), so that asking for
    zlib declares plain data as compressed. *)
Theorem C62_new_track_refuted : exists e t', declares (T void) e 3 COMP_ZLIB None /\ child void ID_CodecPrivate e = Some (Leaf (inf0 3) (VBin [1; 2; 3])) /\
  update_private void (new_track e) = Ok t' /\ t_elt t' = e /\ private_algo void (t_elt t') = Ok COMP_ZLIB.
Proof.
  exists (Master (inf0 1) 0 [lf 2 7; ex_enc 3 0; Leaf (inf0 3) (VBin [1; 2; 3])]). eexists. split; [apply declares_ex|]. split; [vm_compute; reflexivity|].
  split; [vm_compute; reflexivity|]. split; vm_compute; reflexivity.
Qed.
Print Assumptions C62_new_track_refuted.
(** Finding: taking the compression away from a track that was read leaves its codec private data compressed
    and no longer declares it. *)
Theorem C62_removed_refuted : exists e t t', read_track void e = Ok t /\ t_private t = COMP_ZLIB /\
  update_private void (mkTrack (snd (set_none void (t_elt t))) (t_private t)) = Ok t' /\ private_algo void (t_elt t') = Ok COMP_NONE /\
  child void ID_CodecPrivate (t_elt t') = child void ID_CodecPrivate e /\ child void ID_CodecPrivate e <> None.
Proof.
  exists (Master (inf0 1) 0 [lf 2 7; ex_enc 3 0; Leaf (inf0 3) (VBin [1; 2; 3])]). eexists _, _. split; [vm_compute; reflexivity|]. split; [reflexivity|].
  split; [vm_compute; reflexivity|]. split; [vm_compute; reflexivity|]. split; [vm_compute; reflexivity|]. vm_compute. discriminate.
Qed.
Print Assumptions C62_removed_refuted.

(** ** C63 *)
(** MATROSKA_LinkBlockWithReadTracks: the first track with the number of the block, for writing too when
    asked; nothing else of the block changes when the track is not compressed or the block was linked. *)
Theorem C63_read_tracks : forall rest h tracks too l a t, first_track (T rest) h tracks (b_track (l_b l)) a t -> (uncompressed (T rest) t \/ l_rt l <> 0) ->
  exists l', link_read_tracks rest h tracks too l = Ok (ERR_NONE, l') /\ l_rt l' = a /\ l_wt l' = (if too then a else l_wt l) /\ l_ri l' = l_ri l /\ l_wi l' = l_wi l /\
    same_block0 (l_b l) (l_b l') /\ (l_rt l <> a -> b_need (l_b l') = true).
Proof.
  intros rest h tracks too l a t Hf Hu. rewrite (link_read_first rest h tracks too l a t Hf). destruct (relink_ok too a l) as (R1 & R2 & R3 & R4 & R5).
  assert (Ha : h a = Some t) by (destruct Hf as (? & ? & _ & Ha & _); exact Ha).
  assert (E : (if l_rt l =? 0 then check_link rest h (relink too a l) else Ok (ERR_NONE, relink too a l)) = Ok (ERR_NONE, relink too a l)).
  { destruct (Z.eqb_spec (l_rt l) 0) as [e|e]; [|reflexivity]. destruct Hu as [Hu|Hu]; [|contradiction]. apply (check_plain rest h _ t); [rewrite R1; exact Ha|exact Hu]. }
  rewrite E. exists (relink too a l). repeat (split; [first [reflexivity|assumption]|]). intros Hne. unfold relink.
  destruct too; cbn [set_wt set_rt l_b l_wt l_rt]; unfold relinked; rewrite (proj2 (Z.eqb_neq _ _) Hne); [destruct (l_wt l =? a)|]; reflexivity.
Qed.
Print Assumptions C63_read_tracks.
(** A first link to a track with stripped headers: the sizes of the frames count the header. *)
Theorem C63_read_tracks_header : forall rest h tracks too l a t s st, first_track (T rest) h tracks (b_track (l_b l)) a t -> declares (T rest) t s 3 (Some st) ->
  l_rt l = 0 -> b_data (l_b l) = [] ->
  exists l', link_read_tracks rest h tracks too l = Ok (ERR_NONE, l') /\ l_rt l' = a /\ l_wt l' = (if too then a else l_wt l) /\ same_block (zlen st) (l_b l) (l_b l').
Proof.
  intros rest h tracks too l a t s st Hf Hd H0 Hb. rewrite (link_read_first rest h tracks too l a t Hf), H0. cbn [Z.eqb]. destruct (relink_ok too a l) as (R1 & R2 & R3 & R4 & R5).
  assert (Ha : h a = Some t) by (destruct Hf as (? & ? & _ & Ha & _); exact Ha).
  destruct (check_header rest h (relink too a l) t s st) as (b' & -> & Hs & _); [rewrite R1; exact Ha|exact Hd| |].
  { destruct R5 as (_ & _ & _ & _ & _ & _ & _ & _ & _ & _ & _ & _ & _ & _ & R & _). rewrite R. exact Hb. }
  eexists. split; [reflexivity|]. cbn [set_block l_rt l_wt l_b]. split; [exact R1|]. split; [exact R2|].
  unfold same_block, same_block0 in *. intuition congruence.
Qed.
Print Assumptions C63_read_tracks_header.
(** No track with that number: the error, and nothing changes. *)
Theorem C63_no_track : forall rest h tracks too l, no_track (T rest) h tracks (b_track (l_b l)) ->
  link_read_tracks rest h tracks too l = Ok (ERR_INVALID_DATA, l) /\ link_write_tracks rest h tracks l = Ok (ERR_INVALID_DATA, l).
Proof. intros rest h tracks too l H. split; [apply link_read_none|apply link_write_none]; exact H. Qed.
Print Assumptions C63_no_track.
(** MATROSKA_LinkBlockReadTrack: the block takes the number of the track. *)
Theorem C63_read_track : forall rest h a t n too l, h a = Some t -> track_no (T rest) t n -> 0 <= n < 2 ^ 16 -> (uncompressed (T rest) t \/ l_rt l <> 0) ->
  exists l', link_read_track rest h a too l = Ok (ERR_NONE, l') /\ l_rt l' = a /\ l_wt l' = (if too then a else l_wt l) /\ b_track (l_b l') = n /\
    same_block0 (set_number n (l_b l)) (l_b l').
Proof.
  intros rest h a t n too l Ha Hn Hb Hu. unfold link_read_track. rewrite Ha, (number_yes rest t n Hn). cbn [bind]. rewrite Z.mod_small by exact Hb.
  set (l1 := set_block (set_number n (l_b l)) l). change (l_rt l) with (l_rt l1) in *. fold (relink too a l1).
  destruct (relink_ok too a l1) as (R1 & R2 & R3 & R4 & R5).
  assert (E : (if negb (l_rt l1 =? 0) then Ok (ERR_NONE, relink too a l1) else check_link rest h (relink too a l1)) = Ok (ERR_NONE, relink too a l1)).
  { destruct (Z.eqb_spec (l_rt l1) 0) as [e|e]; [|reflexivity]. destruct Hu as [Hu|Hu]; [|contradiction]. apply (check_plain rest h _ t); [rewrite R1; exact Ha|exact Hu]. }
  rewrite E. exists (relink too a l1). split; [reflexivity|]. split; [exact R1|]. split; [exact R2|]. split; [|exact R5]. destruct R5 as (_ & _ & _ & _ & R & _). exact R.
Qed.
Print Assumptions C63_read_track.
(** MATROSKA_LinkBlockWithWriteTracks on a block linked for reading to a track without compression, or
    linked for writing before. *)
Theorem C63_write_tracks : forall rest h tracks l a t, first_track (T rest) h tracks (b_track (l_b l)) a t ->
  ((exists rt, h (l_rt l) = Some rt /\ uncompressed (T rest) rt) \/ l_wt l <> 0) ->
  exists l', link_write_tracks rest h tracks l = Ok (ERR_NONE, l') /\ l_rt l' = l_rt l /\ l_wt l' = a /\ same_block0 (l_b l) (l_b l').
Proof.
  intros rest h tracks l a t Hf Hu. rewrite (link_write_first rest h tracks l a t Hf).
  assert (E : (if l_wt l =? 0 then check_link rest h (set_wt a l) else Ok (ERR_NONE, set_wt a l)) = Ok (ERR_NONE, set_wt a l)).
  { destruct (Z.eqb_spec (l_wt l) 0) as [e|e]; [|reflexivity]. destruct Hu as [(rt & Hr & Hu)|Hu]; [|contradiction]. exact (check_plain rest h (set_wt a l) rt Hr Hu). }
  rewrite E. exists (set_wt a l). split; [reflexivity|]. split; [reflexivity|]. split; [reflexivity|]. cbn [set_wt l_b]. apply same0_relinked, same0_refl.
Qed.
Print Assumptions C63_write_tracks.
(** MATROSKA_LinkBlockWriteTrack. *)
Theorem C63_write_track : forall rest h a t n l, h a = Some t -> track_no (T rest) t n -> 0 <= n < 2 ^ 16 ->
  ((exists rt, h (l_rt l) = Some rt /\ uncompressed (T rest) rt) \/ l_wt l <> 0) ->
  exists l', link_write_track rest h a l = Ok (ERR_NONE, l') /\ l_rt l' = l_rt l /\ l_wt l' = a /\ b_track (l_b l') = n /\ same_block0 (set_number n (l_b l)) (l_b l').
Proof.
  intros rest h a t n l Ha Hn Hb Hu. unfold link_write_track. rewrite Ha, (number_yes rest t n Hn). cbn [bind]. rewrite Z.mod_small by exact Hb.
  set (l1 := set_block (set_number n (l_b l)) l). change (l_rt l) with (l_rt l1) in *. change (l_wt l) with (l_wt l1) in *.
  assert (E : (if negb (l_wt l1 =? 0) then Ok (ERR_NONE, set_wt a l1) else check_link rest h (set_wt a l1)) = Ok (ERR_NONE, set_wt a l1)).
  { destruct (Z.eqb_spec (l_wt l1) 0) as [e|e]; [|reflexivity]. destruct Hu as [(rt & Hr & Hu)|Hu]; [|contradiction]. exact (check_plain rest h (set_wt a l1) rt Hr Hu). }
  rewrite E. exists (set_wt a l1). split; [reflexivity|]. split; [reflexivity|]. split; [reflexivity|]. cbn [set_wt l_b]. split; [apply relinked_track|]. apply same0_relinked, same0_refl.
Qed.
Print Assumptions C63_write_track.
(** A track without a number. *)
Theorem C63_unnumbered : forall rest h a t too l, h a = Some t -> no_number (T rest) t ->
  link_read_track rest h a too l = Ok (ERR_INVALID_DATA, l) /\ link_write_track rest h a l = Ok (ERR_INVALID_DATA, l).
Proof. intros rest h a t too l Ha Hn. unfold link_read_track, link_write_track. rewrite Ha, (number_no rest t Hn). split; reflexivity. Qed.
Print Assumptions C63_unnumbered.
Definition ex_block (n : Z) (sizes : list Z) : block := mkBlock true false false 10 100 n 0 true false false false 0 104 sizes [] [] [].
Definition ex_lb (n : Z) : lblock := mkLB (ex_block n [5; 6]) 0 0 0 0.
Definition ex_numbered (n : Z) : elt := Master (inf0 1) 0 [Leaf (inf0 3) (VBin [1]); lf 2 n].
Definition ex_stripped (n : Z) : elt :=
  Master (inf0 1) 0 [lf 2 n; Master (inf0 4) 0 [Master (inf0 5) 0 [lf 7 1; Master (inf0 9) 0 [lf 10 3; Leaf (inf0 11) (VBin [8; 9])]]]].
Definition ex_heap : heap := fun a =>
  match a with 1 => Some (ex_numbered 4) | 2 => Some (Master (inf0 1) 0 []) | 3 => Some (ex_numbered 7) | 4 => Some (ex_numbered 7) | 5 => Some (ex_stripped 9) | _ => None end.
Lemma ex_number n : track_no (T void) (ex_numbered n) n.
Proof. exists (inf0 2). split; [|reflexivity]. exists [Leaf (inf0 3) (VBin [1])], []. split; [reflexivity|]. split; [reflexivity|]. repeat constructor. intros X; discriminate X. Qed.
Example C63_ex : first_track (T void) ex_heap [1; 2; 3; 4; 5] 7 3 (ex_numbered 7) /\ uncompressed (T void) (ex_numbered 7) /\
  match link_read_tracks void ex_heap [1; 2; 3; 4; 5] true (ex_lb 7) with Ok (e, l) => e = ERR_NONE /\ l_rt l = 3 /\ l_wt l = 3 /\ b_sizes (l_b l) = [5; 6] | _ => False end /\
  match link_read_tracks void ex_heap [1; 2; 3; 4; 5] false (ex_lb 9) with Ok (e, l) => e = ERR_NONE /\ l_rt l = 5 /\ l_wt l = 0 /\ b_sizes (l_b l) = [7; 8] | _ => False end /\
  link_read_tracks void ex_heap [1; 2; 3; 4; 5] false (ex_lb 6) = Ok (ERR_INVALID_DATA, ex_lb 6).
Proof.
  split.
  { exists [1; 2], [4; 5]. split; [reflexivity|]. split; [reflexivity|]. split; [apply ex_number|].
    constructor; [exists (ex_numbered 4); split; [reflexivity|]; right; exists 4; split; [apply ex_number|lia]|].
    constructor; [|constructor]. exists (Master (inf0 1) 0 []). split; [reflexivity|]. left. left. constructor. }
  split; [repeat constructor; intros X; discriminate X|]. vm_compute. repeat split.
Qed.
(** Finding: linking for writing after linking for reading counts the header twice. *)
Theorem C63_twice_refuted : exists l l' e e', link_read_tracks void ex_heap [5] false (ex_lb 9) = Ok (e, l) /\ link_write_tracks void ex_heap [5] l = Ok (e', l') /\
  b_sizes (l_b (ex_lb 9)) = [5; 6] /\ b_sizes (l_b l) = [7; 8] /\ b_sizes (l_b l') = [9; 10] /\ e = ERR_NONE /\ e' = ERR_NONE.
Proof. eexists _, _, _, _. split; [vm_compute; reflexivity|]. split; [vm_compute; reflexivity|]. vm_compute. repeat split. Qed.
Print Assumptions C63_twice_refuted.
(** Finding: linking for writing a block that was never linked for reading uses a NULL track. *)
Theorem C63_write_null_refuted : forall rest h tracks l a t, h 0 = None -> first_track (T rest) h tracks (b_track (l_b l)) a t -> l_rt l = 0 -> l_wt l = 0 ->
  link_write_tracks rest h tracks l = Null.
Proof.
  intros rest h tracks l a t H0 Hf Hr Hw. rewrite (link_write_first rest h tracks l a t Hf), Hw. cbn [Z.eqb]. unfold check_link. cbn [set_wt l_rt]. rewrite Hr, H0. reflexivity.
Qed.
Print Assumptions C63_write_null_refuted.
Example C63_write_null_refuted_ex : ex_heap 0 = None /\ link_write_tracks void ex_heap [1; 2; 3] (ex_lb 7) = Null.
Proof. split; vm_compute; reflexivity. Qed.

(** ** C64 *)
(** MATROSKA_LinkClusterBlocks with tracks that are not compressed: what is left of the cluster, in order,
    with every SimpleBlock and every first Block of a group linked to the first track with its number;
    those without such a track go (the group with the block) unless they are to be kept. *)
Theorem C64_cluster : forall rest h tracks inf keep cl, Forall (track_ok rest h) tracks ->
  exists cl', link_cluster rest h tracks inf keep cl = Ok cl' /\ left_of (T rest) h tracks inf keep cl cl'.
Proof. exact link_cluster_ok. Qed.
Print Assumptions C64_cluster.
(** No block is left without its track when unmatched ones are not kept. *)
Theorem C64_all_linked : forall rest h tracks inf cl cl', Forall (track_ok rest h) tracks -> link_cluster rest h tracks inf false cl = Ok cl' ->
  Forall (fun l => l_rt l = l_wt l /\ l_ri l = inf /\ exists t, first_track (T rest) h tracks (b_track (l_b l)) (l_rt l) t) (flat_map heads cl').
Proof.
  intros rest h tracks inf cl cl' Ht H. destruct (link_cluster_ok rest h tracks inf false cl Ht) as (cl2 & E & HL). rewrite E in H. injection H as ->. clear E.
  assert (S : forall l l', stays (T rest) h tracks inf false l l' -> l_rt l' = l_wt l' /\ l_ri l' = inf /\ exists t, first_track (T rest) h tracks (b_track (l_b l')) (l_rt l') t).
  { intros l l' [(a & t & Hf & H1 & H2 & H3 & H4 & H5)|[X _]]; [|discriminate]. split; [congruence|]. split; [exact H3|]. exists t. destruct H5 as (_ & _ & _ & _ & Hb & _). rewrite Hb, H1. exact Hf. }
  induction HL as [|e c c' _ IH|l l' c c' Hs _ IH|l c c' _ _ _ IH|g pre l r l' c c' Hg Hs _ IH|g pre l r c c' _ _ _ _ IH|g c c' Hg _ IH]; cbn [flat_map heads app].
  - constructor.
  - exact IH.
  - constructor; [exact (S l l' Hs)|exact IH].
  - exact IH.
  - destruct Hg as [pre l r Hpre]. apply Forall_app. split; [|exact IH]. unfold group_head. rewrite filter_app.
    replace (filter (fun x => match x with GBlock _ => true | GOther _ => false end) pre) with (@nil gitem)
      by (symmetry; clear -Hpre; induction Hpre as [|[x|x] pre Hx _ IH]; [reflexivity|contradiction|exact IH]).
    cbn [filter app]. constructor; [exact (S l l' Hs)|constructor].
  - exact IH.
  - apply Forall_app. split; [|exact IH]. unfold group_head.
    replace (filter (fun x => match x with GBlock _ => true | GOther _ => false end) g) with (@nil gitem)
      by (symmetry; clear -Hg; induction Hg as [|[x|x] pre Hx _ IH]; [reflexivity|contradiction|exact IH]).
    constructor.
Qed.
Print Assumptions C64_all_linked.
Definition ex_cl : list citem := [IOther (lf 2 1); ISimple (ex_lb 7); IGroup [GOther (lf 2 1); GBlock (ex_lb 4); GBlock (ex_lb 6)]; ISimple (ex_lb 6); IGroup [GBlock (ex_lb 6); GOther (lf 2 1)]; ISimple (ex_lb 4)].
Example C64_ex : Forall (track_ok void ex_heap) [1; 2; 3; 4] /\
  match link_cluster void ex_heap [1; 2; 3; 4] 50 false ex_cl with Ok c => zlen c = 4 /\ map l_rt (flat_map heads c) = [3; 1; 1] /\ map l_wi (flat_map heads c) = [50; 50; 50] | _ => False end /\
  match link_cluster void ex_heap [1; 2; 3; 4] 50 true ex_cl with Ok c => zlen c = 6 /\ map l_rt (flat_map heads c) = [3; 1; 0; 0; 1] | _ => False end.
Proof.
  split; [|vm_compute; repeat split].
  assert (U : forall n, uncompressed (T void) (ex_numbered n)) by (intros n; repeat constructor; intros X; discriminate X).
  constructor; [exists (ex_numbered 4); split; [reflexivity|]; split; [apply U|right; exists 4; apply ex_number]|].
  constructor; [exists (Master (inf0 1) 0 []); split; [reflexivity|]; split; [constructor|left; left; constructor]|].
  constructor; [exists (ex_numbered 7); split; [reflexivity|]; split; [apply U|right; exists 7; apply ex_number]|].
  constructor; [exists (ex_numbered 7); split; [reflexivity|]; split; [apply U|right; exists 7; apply ex_number]|]. constructor.
Qed.

(** ** C65 *)
(** The flags set on a SimpleBlock are answered, written, and answered by the block read back; the group
    it is asked about plays no part. *)
Theorem C65_simple : forall b v d t h ps g, b_simple b = true -> 0 <= b_track b < 16384 -> -32768 <= b_time b < 32768 -> track_header t h ->
  holds (b_sizes b) (b_data b) (map (app h) ps) -> lace_ok (b_lacing b) ps -> (b_lacing b = 2 -> zlen ps < 256) ->
  let b' := set_discardable (set_keyframe b v) d in
  is_keyframe b' g = v /\ is_discardable b' = d /\ is_laced b' = is_laced b /\
  exists bs, (forall o, room o (zlen bs) -> render_block b' t o = Ok (ERR_NONE, zlen bs, o_put o bs)) /\
    forall fuel r s pos, b_simple r = true -> placed fuel r s bs h ps ->
      exists r', read_head fuel r s pos = Ok (ERR_NONE, r', b_first r') /\ is_keyframe r' g = v /\ is_discardable r' = d /\ is_laced r' = is_laced b.
Proof.
  intros b v d t h ps g Hb Ht Hm Hth Hh Hlo H2 b'.
  assert (B : b_simple b' = true /\ b_key b' = v /\ b_disc b' = d /\ b_lacing b' = b_lacing b /\ b_track b' = b_track b /\ b_time b' = b_time b /\ b_sizes b' = b_sizes b /\ b_data b' = b_data b).
  { unfold b', set_discardable, set_keyframe. cbn [b_simple]. rewrite Hb. repeat split. }
  destruct B as (B1 & B2 & B3 & B4 & B5 & B6 & B7 & B8).
  split; [unfold is_keyframe; rewrite B1, B2; destruct v; reflexivity|]. split; [unfold is_discardable; rewrite B1; exact B3|]. split; [unfold is_laced; rewrite B4; reflexivity|].
  rewrite <- B5 in Ht. rewrite <- B6 in Hm. rewrite <- B7, <- B8 in Hh. rewrite <- B4 in Hlo, H2.
  destruct (C25_write b' t h ps Ht Hm Hth Hh Hlo) as (bs & Hc & Hr). exists bs. split; [exact Hr|]. intros fuel r s pos Hrs Hp. rewrite B1, <- Hrs in Hc.
  destruct (read_head_ok fuel r s pos _ _ _ _ _ _ h ps bs Ht Hm Hc Hp H2) as (r' & E & (_ & _ & _ & Hk & _ & Hl) & _ & _ & _ & _ & Hs & _). exists r'. split; [exact E|].
  rewrite Hrs in Hs. destruct (Hk Hs) as [K1 K2]. split; [unfold is_keyframe; rewrite Hs, K1, B2; destruct v; reflexivity|]. split; [unfold is_discardable; rewrite Hs, K2, B3; reflexivity|].
  unfold is_laced. rewrite Hl, B4. reflexivity.
Qed.
Print Assumptions C65_simple.
Example C65_simple_ex : let b := made true 5 7 false false false 0 [[1; 2; 3]] in holds (b_sizes b) (b_data b) (map (app []) [[1; 2; 3]]) /\
  exists bs r', render_block (set_discardable (set_keyframe b true) true) None (OFile [] 0) = Ok (ERR_NONE, 7, OFile bs 7) /\
    read_head 10 (found true 7 0) (file bs) 0 = Ok (ERR_NONE, r', 4) /\ is_keyframe r' None = true /\ is_discardable r' = true.
Proof. split; [vm_compute; split; reflexivity|]. eexists _, _. split; [vm_compute; reflexivity|]. vm_compute. repeat split. Qed.
(** A Block not marked by the program is a keyframe exactly if the group it is in has no ReferenceBlock; it is
    never discardable. *)
Theorem C65_block : forall b ids, b_simple b = false -> b_key b = false ->
  (is_keyframe b (Some ids) = true <-> ~ In ID_ReferenceBlock ids) /\ is_keyframe b None = false /\ forall v, is_discardable (set_discardable b v) = false.
Proof.
  intros b ids Hb Hk. unfold is_keyframe, is_discardable, set_discardable. rewrite Hb, Hk. split; [|split; [reflexivity|intros v; rewrite Hb; reflexivity]].
  rewrite negb_true_iff, <- not_true_iff_false, existsb_exists. split; intros H X; apply H.
  - exists ID_ReferenceBlock. split; [exact X|apply Z.eqb_refl].
  - destruct X as (i & Hi & E). apply Z.eqb_eq in E. subst i. exact Hi.
Qed.
Print Assumptions C65_block.
Example C65_block_ex : is_keyframe (found false 7 0) (Some [ID_ReferenceBlock]) = false /\ is_keyframe (found false 7 0) (Some [5; 6]) = true.
Proof. split; reflexivity. Qed.
(** Marking a Block does not reach the file: a keyframe of a group with a ReferenceBlock is none once read back,
    and unmarking one of a group without it changes nothing. *)
Theorem C65_block_mark_refuted : exists b ids bs r', b_simple b = false /\ is_keyframe (set_keyframe b true) (Some ids) = true /\
  render_block (set_keyframe b true) None (OFile [] 0) = Ok (ERR_NONE, 7, OFile bs 7) /\
  read_head 10 (found false 7 0) (file bs) 0 = Ok (ERR_NONE, r', 4) /\ is_keyframe r' (Some ids) = false.
Proof.
  exists (made false 5 7 false false false 0 [[1; 2; 3]]), [ID_ReferenceBlock]. eexists _, _. split; [reflexivity|]. split; [reflexivity|]. split; [vm_compute; reflexivity|]. vm_compute. repeat split.
Qed.
Print Assumptions C65_block_mark_refuted.
Theorem C65_block_unmark_refuted : exists b ids, b_simple b = false /\ is_keyframe (set_keyframe b false) (Some ids) = true.
Proof. exists (made false 5 7 true false false 0 [[1; 2; 3]]), []. split; reflexivity. Qed.
Print Assumptions C65_block_unmark_refuted.
