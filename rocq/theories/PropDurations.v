(** Durations of audio frames, and dates. *)
From Verif Require Import Base BaseProofs VintSpec EbmlIdSpec CrcSpec IntEltSpec Vint EbmlId EbmlIdProofs IntElt Crc EltHead Void Ebml ArrProofs2 Stream StreamProofs Finder FinderSpec
  Tree TreeRead TreeSpec IntEltProofs Create Frame BlockTime PropTree Arr Str StrProofs StrSpec Durations DurationsSpec DurationsProofs.

(** ** C45 *)
(** Frames for which the code follows the standards: AC-3 of bsid 8 and up with a known rate, DTS of less than 65 blocks. *)
Definition followed (k : codec) (f : list Z) : Prop :=
  match k with
  | AC3 => 8 <= bits (at_ f 5) 7 3 /\ bits (at_ f 4) 7 6 <> 3
  | DTS => dts_nblks f < 64
  | _ => True
  end.
(** Every frame of a block gets the duration its header gives, samples over rate, in nanoseconds rounded down, and the invalid timestamp if the
    header names no duration; the error tells whether there was such a frame. *)
Theorem C45_frames : forall k id t fs post loc rate old, text id -> is_codec id k -> loc <> 0 ->
  Forall (fun f => bytes_ok f /\ header_len k <= zlen f /\ followed k f) fs ->
  process_durations (Some 2) loc (Some (id ++ 0 :: t)) rate (concat fs ++ post) (map zlen fs) old =
  Ok (err_of (map (fun f => duration (header k f)) fs), map (fun f => show (duration (header k f))) fs).
Proof.
  intros k id t fs post loc rate old Hi Hc L F. rewrite (branch_frames id t loc rate _ _ old k Hi Hc L). rewrite <- (map_map (fun f => duration (header k f)) show).
  destruct k; cbn [header header_len followed] in *.
  - apply (loop0 mpeg_frame (fun f => duration (mpeg_header f)) (fun f => bytes_ok f /\ 3 <= zlen f /\ True)); [|exact F]. intros pre f q (B & K & _). apply mpeg_ok; [exact B|exact K].
  - apply (loop0 ac3_frame (fun f => duration (ac3_header f)) (fun f => bytes_ok f /\ 6 <= zlen f /\ 8 <= bits (at_ f 5) 7 3 /\ bits (at_ f 4) 7 6 <> 3)); [|exact F]. intros pre f q (B & K & H1 & H2).
    rewrite ac3_ok by assumption. replace (bits (at_ f 5) 7 3 <? 8) with false by lia. replace (bits (at_ f 4) 7 6 =? 3) with false by lia. reflexivity.
  - apply (loop0 eac3_frame (fun f => duration (eac3_header f)) (fun f => bytes_ok f /\ 5 <= zlen f /\ True)); [|exact F]. intros pre f q (B & K & _). apply eac3_ok; [exact B|exact K].
  - apply (loop0 dts_frame (fun f => duration (dts_header f)) (fun f => bytes_ok f /\ 9 <= zlen f /\ dts_nblks f < 64)); [|exact F]. intros pre f q (B & K & H).
    rewrite dts_ok by assumption. unfold dts_code, dts_header. replace (64 * bits (at_ f 4) 0 0) with 0; [rewrite Z.add_0_r; reflexivity|]. unfold dts_nblks in H. change (bits (at_ f 4) 0 0) with (at_ f 4 / 1 mod 2) in *. change (bits (at_ f 5) 7 2) with (at_ f 5 / 4 mod 64) in *. rewrite Z.div_1_r in *. lia.
Qed.
Print Assumptions C45_frames.
(** AAC frames all last 1024 samples of the track's rate, if the track tells one. *)
Theorem C45_aac : forall id t data sizes loc rate old, text id -> is_aac id -> loc <> 0 -> 0 < rate ->
  process_durations (Some 2) loc (Some (id ++ 0 :: t)) (Some rate) data sizes old = Ok (ERR_NONE, map (fun _ => 1000000000 * 1024 / rate) sizes).
Proof. intros id t data sizes loc rate old Hi A L R. rewrite branch_aac by assumption. rewrite scale_pos by (assumption || lia). cbn [bind]. apply const_loop. Qed.
Print Assumptions C45_aac.
(** In every other case the durations stay as they were: not an audio track, no track type, data not read, no codec ID, a codec without a rule, AAC without a rate. *)
Theorem C45_kept : forall typ loc id t rate data sizes old, text id ->
  typ <> Some 2 \/ loc = 0 \/ ((forall k, ~ is_codec id k) /\ (is_aac id -> rate = None)) ->
  exists err, process_durations typ loc (Some (id ++ 0 :: t)) rate data sizes old = Ok (err, old) /\ process_durations typ loc None rate data sizes old <> Ok (ERR_NONE, old) /\
    (err = ERR_NONE <-> typ = Some 2 /\ loc <> 0).
Proof.
  intros typ loc id t rate data sizes old Hi H. destruct typ as [k|].
  2:{ exists ERR_INVALID_DATA. repeat split; try (vm_compute; discriminate); intros; vm_compute in *; try discriminate. intuition discriminate. }
  destruct (Z.eq_dec k 2) as [->|Hk].
  2:{ exists ERR_INVALID_DATA. unfold process_durations, MATROSKA_TRACK_TYPE_AUDIO. replace (k =? 2) with false by lia. cbn [negb]. split; [reflexivity|]. split; [vm_compute; discriminate|].
      split; [vm_compute; discriminate|]. intros (K & _). injection K as K. contradiction. }
  destruct (Z.eq_dec loc 0) as [->|Hl].
  { exists ERR_READ. split; [reflexivity|]. split; [vm_compute; discriminate|]. split; [vm_compute; discriminate|]. intros (_ & K). lia. }
  destruct H as [H|[H|(N & A)]]; [elim H; reflexivity|contradiction|]. exists ERR_NONE.
  split; [|split; [unfold process_durations, MATROSKA_TRACK_TYPE_AUDIO; replace (loc =? 0) with false by lia; vm_compute; discriminate|split; [intros _; split; [reflexivity|exact Hl]|reflexivity]]].
  assert (D : {is_aac id} + {~ is_aac id}).
  { destruct (order id AAC) eqn:O; [left; left; apply order_eq; [exact Hi|unfold AAC; known_text|exact O]| |];
    (destruct (list_eq_dec Z.eq_dec (firstn 6 id) (AAC ++ [47])) as [E|E];
     [left; right; exists (skipn 6 id); rewrite <- (firstn_skipn 6 id) at 1; rewrite E, <- app_assoc; reflexivity|
      right; intros [K|(r & ->)]; [apply order_eq in K; [congruence|exact Hi|unfold AAC; known_text]|apply E; reflexivity]]). }
  destruct D as [D|D]; [|apply branch_none; assumption]. rewrite branch_aac by assumption. rewrite (A D). reflexivity.
Qed.
Print Assumptions C45_kept.
(** Departures from the standards: an AC-3 frame of bsid below 8, which the standard asks decoders to take, is refused; the reserved rate gives a duration of 0. *)
Theorem C45_ac3_low : forall f post pre, bytes_ok f -> 6 <= zlen f -> bits (at_ f 5) 7 3 < 8 -> ac3_frame (pre ++ f ++ post) (zlen pre) = Ok None.
Proof. intros f post pre B L H. rewrite ac3_ok by assumption. replace (bits (at_ f 5) 7 3 <? 8) with true by lia. reflexivity. Qed.
Print Assumptions C45_ac3_low.
Theorem C45_ac3_reserved : forall f post pre, bytes_ok f -> 6 <= zlen f -> 8 <= bits (at_ f 5) 7 3 <= 10 -> bits (at_ f 4) 7 6 = 3 ->
  ac3_frame (pre ++ f ++ post) (zlen pre) = Ok (Some 0) /\ duration (ac3_header f) = None.
Proof.
  intros f post pre B L H K. rewrite ac3_ok by assumption. replace (bits (at_ f 5) 7 3 <? 8) with false by lia. rewrite K. replace (bits (at_ f 5) 7 3 <=? 10) with true by lia. split; [reflexivity|].
  unfold ac3_header. replace (10 <? bits (at_ f 5) 7 3) with false by lia. rewrite K. reflexivity.
Qed.
Print Assumptions C45_ac3_reserved.
(** A DTS frame of more than 64 blocks gets 64 blocks too many: the high bit is shifted by 7, not 6. *)
Theorem C45_dts_long : forall f post pre r, bytes_ok f -> 9 <= zlen f -> 64 <= dts_nblks f -> dts_rate (bits (at_ f 8) 5 2) = Some r ->
  dts_frame (pre ++ f ++ post) (zlen pre) = Ok (Some (1000000000 * (32 * (dts_nblks f + 1 + 64)) / r)) /\ duration (dts_header f) = Some (1000000000 * (32 * (dts_nblks f + 1)) / r).
Proof.
  intros f post pre r B L H R. rewrite dts_ok by assumption. unfold dts_code, dts_header. rewrite R. split; [|reflexivity]. cbn [duration]. replace (bits (at_ f 4) 0 0) with 1; [do 3 f_equal; f_equal; lia|].
  unfold dts_nblks in H. change (bits (at_ f 4) 0 0) with (at_ f 4 / 1 mod 2) in *. change (bits (at_ f 5) 7 2) with (at_ f 5 / 4 mod 64) in *. rewrite Z.div_1_r in *. lia.
Qed.
Print Assumptions C45_dts_long.
(** The headers are read without regard to the size of the frame: a frame shorter than its header at the end of the data is read past it. *)
Theorem C45_short_refuted : exists loc rate f old, bytes_ok f /\ is_codec [65; 95; 65; 67; 51] AC3 /\ loc <> 0 /\ process_durations (Some 2) loc (Some [65; 95; 65; 67; 51; 0]) rate f [zlen f] old = Bad.
Proof.
  exists 40, None, [11; 119; 0], []. split; [apply bytes_ok_forallb; vm_compute; reflexivity|]. split; [|split; [lia|vm_compute; reflexivity]].
  exists [65; 95; 65; 67; 51]. split; [left; reflexivity|]. repeat constructor.
Qed.
Print Assumptions C45_short_refuted.
(** Two layer III frames at 44100 Hz, one of a reserved version; E-AC-3 of two blocks; DTS. *)
Example C45_ex : is_codec [97; 95; 109; 112; 101; 103; 47; 108; 51] MpegAudio /\
  process_durations (Some 2) 40 (Some [97; 95; 109; 112; 101; 103; 47; 108; 51; 0]) None ([255; 251; 144; 0; 1] ++ [255; 235; 144] ++ [255; 251; 144; 0]) [5; 3; 4] [] = Ok (ERR_INVALID_DATA, [26122448; INVALID_TIMESTAMP; 26122448]) /\
  process_durations (Some 2) 40 (Some [65; 95; 69; 65; 67; 51; 0]) None [11; 119; 1; 2; 16; 0] [6] [] = Ok (ERR_NONE, [10666666]) /\
  process_durations (Some 2) 40 (Some [65; 95; 68; 84; 83; 0]) None [127; 254; 128; 1; 252; 60; 0; 0; 52] [9] [] = Ok (ERR_NONE, [10666666]) /\ dts_nblks [127; 254; 128; 1; 252; 60; 0; 0; 52] = 15 /\
  process_durations (Some 2) 40 (Some [65; 95; 65; 65; 67; 47; 76; 67; 0]) (Some 48000) [1; 2] [1; 1] [] = Ok (ERR_NONE, [21333333; 21333333]) /\ is_aac [65; 95; 65; 65; 67; 47; 76; 67] /\
  process_durations (Some 1) 40 (Some [65; 95; 68; 84; 83; 0]) None [1] [1] [7] = Ok (ERR_INVALID_DATA, [7]).
Proof.
  split. { exists [65; 95; 77; 80; 69; 71; 47; 76; 51]. split; [right; right; left; reflexivity|]. repeat constructor; unfold same_letter; lia. }
  repeat (split; [vm_compute; reflexivity|]). split; [right; exists [76; 67]; reflexivity|]. vm_compute. reflexivity.
Qed.

(** ** C44 *)
(** A date set on an element is the one it gives back: seconds since 1 January 2001, all but that instant itself. *)
Theorem C44_set_get : forall i v d, - 2 ^ 31 <= d < 2 ^ 31 -> d <> 0 -> exists e, date_set (Leaf i (VInt v)) d = Ok (ERR_NONE, e) /\ date_time e = Ok d.
Proof.
  intros i v d Hd Hn. destruct (date_value d Hd Hn i v) as (E & B). eexists. split; [exact E|]. unfold int_set.
  replace (s64 (d * 1000000000)) with (d * 1000000000) by (symmetry; unfold is_int64 in B; unfold s64; apply s_wrap_small; [lia|change (2 ^ (64 - 1)) with (2 ^ 63); lia]).
  rewrite date_read by (reflexivity || exact B). rewrite Z.quot_mul by lia. f_equal. unfold s32. apply s_wrap_small; [lia|change (2 ^ (32 - 1)) with (2 ^ 31); lia].
Qed.
Print Assumptions C44_set_get.
(** Through a file: the date element is written as 8 bytes of nanoseconds and read back with the same date. *)
Theorem C44_file : forall E narrow widen flt_is wd alloc char_signed junk junk0 junkcrc allow,
  (forall n, 0 <= n -> zlen (alloc n) = n) -> (forall p, zlen (junk p) = 16 /\ bytes_ok (junk p)) ->
  forall c i v keep d p depth c0 e0 up t, bytes_ok d -> 0 <= p <= zlen d -> zlen d < 2 ^ 31 ->
  e_kind i = Known c -> c_class (E c) = KDate -> c_def (E c) = None -> e_defsz i = 8 -> e_fin i = true -> valid_id (c_id (E c)) -> c_id (E c) <> 191 -> 0 <= e_szlen i <= 8 -> resolves E c0 (Known c) ->
  (e0 = -1 \/ 2 ^ 32 <= e0) -> - 2 ^ 31 <= t < 2 ^ 31 -> t <> 0 ->
  exists e n e1 d' h q fuel0, date_set (Leaf i (VInt v)) t = Ok (ERR_NONE, e) /\
    element_render E narrow flt_is true alloc wd keep e (OFile d p) = Ok (ERR_NONE, n, e1, OFile d' (p + n)) /\ firstn (Z.to_nat p) d' = firstn (Z.to_nat p) d /\
    find_on E junk allow (mkIn false 0 d') p ((c0, e0) :: up) = Ok (FElt h 0 q) /\
    forall fuel, (fuel0 <= fuel)%nat -> exists e2, read_data E widen char_signed true junk junk0 junkcrc allow false fuel depth (mkIn false 0 d') ((c0, e0) :: up) (of_hdr E h) q = Ok (ERR_NONE, e2, p + n) /\
      date_time e2 = Ok t.
Proof.
  intros E narrow widen flt_is wd alloc cs junk junk0 junkcrc allow Ha Hj c i v keep d p depth c0 e0 up t Hd Hp Hz Hk Hc Hdef Hds Hf Hv Hid Hs Hr He Ht Hn.
  destruct (date_value t Ht Hn i v) as (Es & B). set (e := int_set i (t * 1000000000)) in *.
  assert (Sv : s64 (t * 1000000000) = t * 1000000000) by (unfold is_int64 in B; unfold s64; apply s_wrap_small; [lia|change (2 ^ (64 - 1)) with (2 ^ 63); lia]).
  assert (Ee : e = Leaf (with_need (with_set i true) true) (VInt (t * 1000000000))) by (unfold e, int_set; rewrite Sv; reflexivity). clearbody e. subst e.
  set (i1 := with_need (with_set i true) true) in *. set (x := t * 1000000000) in *.
  assert (F1 : e_kind i1 = Known c) by exact Hk. assert (F2 : e_set i1 = true) by reflexivity. assert (F3 : e_defsz i1 = 8) by exact Hds. assert (F4 : e_szlen i1 = e_szlen i) by reflexivity. assert (F5 : e_fin i1 = true) by exact Hf. assert (F6 : e_need i1 = true) by reflexivity.
  assert (K : kind_class E (e_kind i1) = KDate) by (rewrite F1; exact Hc).
  assert (Df : default_of E i1 = None) by (unfold default_of; rewrite F1; exact Hdef).
  assert (Id : eid_of E i1 = c_id (E c)) by (unfold eid_of; rewrite F1; reflexivity).
  assert (P : psize E flt_is wd (Leaf i1 (VInt x)) = 8).
  { cbn [psize]. unfold leaf_psize. rewrite K, F3, update_size_sint_max by lia. destruct (snat_least x B) as (Hle & _). lia. }
  assert (Om : omitted E flt_is wd (Leaf i1 (VInt x)) = false) by (unfold omitted; rewrite Df; apply andb_false_r).
  assert (W : writable E narrow flt_is wd (Leaf i1 (VInt x))).
  { cbn [writable]. split; [unfold def_ok; rewrite K, Df; exact I|]. split; [unfold val_ok; rewrite K; exact B|]. intros _. split; [exact F2|]. split; [exact F5|].
    split; [unfold defsz_ok; rewrite K; exact F3|]. split; [|left; exact F6]. unfold head_ok. rewrite P, Id, F4. split; [exact Hv|]. split; [exact Hs|]. split; [lia|vm_compute; reflexivity]. }
  assert (R : readable E flt_is wd cs depth (Leaf i1 (VInt x))).
  { cbn [readable einfo]. split; [exact F5|]. split; [unfold val_ok; rewrite K; exact B|]. split; [unfold sint_plain; rewrite K; exact I|]. rewrite K, Id. split; [discriminate|]. split; [discriminate|exact Hid]. }
  assert (N : fsize E flt_is wd (Leaf i1 (VInt x)) <= 8 + 4 + 8).
  { unfold fsize. rewrite P. cbn [einfo]. rewrite Id, F4, F5. unfold full_size. destruct Hv as (n & Hv). rewrite (get_id_length_ok _ n Hv). destruct Hv as [Hv _]. change (coded_size_length 8 (e_szlen i) true) with (u8 (if negb (e_szlen i =? 0) && (1 <? e_szlen i) then e_szlen i else 1)). unfold u8. rewrite Z.mod_small by (change (2 ^ 8) with 256; destruct (_ && _); lia). destruct (_ && _); lia. }
  destruct (C14_round_trip E narrow widen flt_is wd alloc cs junk junk0 junkcrc allow Ha Hj (Leaf i1 (VInt x)) keep d p depth c0 e0 up Hd Hp ltac:(lia) ltac:(lia) W Om R ltac:(cbn [einfo]; rewrite F1; exact Hr) ltac:(lia)) as (e1 & d' & h & q & fuel0 & R1 & R2 & R3 & R4).
  exists (Leaf i1 (VInt x)), (fsize E flt_is wd (Leaf i1 (VInt x))), e1, d', h, q, fuel0. split; [exact Es|]. split; [exact R1|]. split; [exact R2|]. split; [exact R3|].
  intros fuel Hfu. destruct (R4 fuel Hfu) as (e2 & Q1 & Q2). exists e2. split; [exact Q1|]. inversion Q2 as [i0 v0 i' v' S1 S2 S3 S4 S5 S6|]; subst. cbn [val_same] in S2. subst v'. destruct S3 as [S3|S3]; [discriminate|].
  rewrite date_read by assumption. unfold x. rewrite Z.quot_mul by lia. f_equal. unfold s32. apply s_wrap_small; [lia|change (2 ^ (32 - 1)) with (2 ^ 31); lia].
Qed.
Print Assumptions C44_file.

(** A stored value of nanoseconds reads as whole seconds, rounded towards the reference date, as long as they fit 32 bits; an element without a value reads as 0, which stands for no date. *)
Theorem C44_read : forall i x, is_int64 x -> - 2 ^ 31 <= Z.quot x 1000000000 < 2 ^ 31 -> date_time (Leaf i (VInt x)) = Ok (if e_set i then Z.quot x 1000000000 else 0).
Proof.
  intros i x B H. destruct (e_set i) eqn:S; [|unfold date_time; rewrite S; reflexivity]. rewrite date_read by assumption. f_equal. unfold s32. apply s_wrap_small; [lia|change (2 ^ (32 - 1)) with (2 ^ 31); exact H].
Qed.
Print Assumptions C44_read.
(** Order is kept within that range. *)
Theorem C44_monotone : forall i j x y a b, is_int64 x -> is_int64 y -> e_set i = true -> e_set j = true -> x <= y -> - 2 ^ 31 * 1000000000 <= x -> y < 2 ^ 31 * 1000000000 ->
  date_time (Leaf i (VInt x)) = Ok a -> date_time (Leaf j (VInt y)) = Ok b -> a <= b.
Proof.
  intros i j x y a b Bx By Si Sj H L U Ea Eb. assert (Q : Z.quot x 1000000000 <= Z.quot y 1000000000) by (apply Z.quot_le_mono; lia).
  assert (Qa : - 2 ^ 31 <= Z.quot x 1000000000). { replace (- 2 ^ 31) with (Z.quot (- 2 ^ 31 * 1000000000) 1000000000) by (apply Z.quot_mul; lia). apply Z.quot_le_mono; lia. }
  assert (Qb : Z.quot y 1000000000 < 2 ^ 31). { destruct (Z.le_gt_cases 0 y); [apply Z.quot_lt_upper_bound; lia|]. pose proof (Z.quot_le_mono y 0 1000000000 ltac:(lia) ltac:(lia)) as K. rewrite Z.quot_0_l in K by lia. lia. }
  rewrite C44_read, Si in Ea by (try assumption; lia). rewrite C44_read, Sj in Eb by (try assumption; lia). injection Ea as <-. injection Eb as <-. exact Q.
Qed.
Print Assumptions C44_monotone.
(** Dates beyond: the file can hold 292 years each way, but a date after 19 January 2069 reads as one up to 136 years before. *)
Theorem C44_late_refuted : exists i x y a b, is_int64 x /\ is_int64 y /\ e_set i = true /\ x < y /\ date_time (Leaf i (VInt x)) = Ok a /\ date_time (Leaf i (VInt y)) = Ok b /\ b < a.
Proof.
  exists (fresh 0 true 8 8), (1000000000 * (2 ^ 31 - 1)), (1000000000 * 2 ^ 31), (2 ^ 31 - 1), (- 2 ^ 31). split; [split; known|]. split; [split; known|]. split; [reflexivity|]. split; [known|]. split; [known|]. split; [known|]. known.
Qed.
Print Assumptions C44_late_refuted.
(** The reference date itself cannot be set: the number for it means "no date". *)
Theorem C44_reference_refuted : forall e, date_set e 0 = Ok (ERR_INVALID_PARAM, e).
Proof. reflexivity. Qed.
Print Assumptions C44_reference_refuted.
(** The system clock: a time after 1970 becomes a date, which becomes that time again for the calendar, up to 2038; the one second of the reference date becomes the next. *)
Theorem C44_clock : forall t, 0 <= t < 2 ^ 31 -> packed_time (linux_to_date t) = Ok (Some (if t =? 978307200 then t + 1 else t)).
Proof.
  intros t H. unfold linux_to_date, packed_time, DATETIME_OFFSET. replace (s64 (t - 978307200)) with (t - 978307200) by (symmetry; unfold s64; apply s_wrap_small; [lia|change (2 ^ (64 - 1)) with (2 ^ 63); lia]).
  cbv zeta. destruct (Z.eqb_spec t 978307200) as [->|N]; [vm_compute; reflexivity|]. replace (t - 978307200 =? 0) with false by lia.
  replace (s32 (t - 978307200)) with (t - 978307200) by (symmetry; unfold s32; apply s_wrap_small; [lia|change (2 ^ (32 - 1)) with (2 ^ 31); lia]).
  replace (t - 978307200 =? 0) with false by lia. replace (t - 978307200 + 978307200) with t by lia. replace (s32 t) with t by (symmetry; unfold s32; apply s_wrap_small; [lia|change (2 ^ (32 - 1)) with (2 ^ 31); lia]). rewrite Z.eqb_refl. reflexivity.
Qed.
Print Assumptions C44_clock.
(** Every date after 19 January 2038 overflows on the way to the calendar, although dates go up to 2069. *)
Theorem C44_2038_refuted : forall t, 2 ^ 31 - 978307200 <= t < 2 ^ 31 -> packed_time t = Bad.
Proof.
  intros t H. unfold packed_time, DATETIME_OFFSET. replace (t =? 0) with false by lia. cbv zeta. destruct (Z.eqb_spec (s32 (t + 978307200)) (t + 978307200)) as [E|]; [|reflexivity].
  exfalso. unfold s32, s_wrap in E. change (2 ^ (32 - 1)) with 2147483648 in *. change (2 ^ 31) with 2147483648 in *. change (2 ^ 32) with 4294967296 in *. cbv zeta in E. lia.
Qed.
Print Assumptions C44_2038_refuted.
(** A date element in a document: 26 October 2010, through a file. *)
Definition date_schema : schema := fun c => match c with 0 => mkCtx 0 KMaster None (Some [mkSem false false 1 0]) [] | _ => mkCtx 17505 KDate None (Some []) [] end.
Example C44_ex : resolves date_schema 0 (Known 1) /\ valid_id (c_id (date_schema 1)) /\
  match date_set (Leaf (fresh 1 false 8 8) (VInt 0)) 309830400 with
  | Ok (_, e) =>
    match element_render date_schema ex_narrow ex_flt_is true ex_alloc false false e (OFile [1; 2; 3] 1) with
    | Ok (_, n, _, OFile d _) =>
      match find_on date_schema ex_junk true (mkIn false 0 d) 1 [(0, -1)] with
      | Ok (FElt h 0 q) =>
          match read_data date_schema (fun x => x) false true ex_junk 0 0 true false 20 2 (mkIn false 0 d) [(0, -1)] (of_hdr date_schema h) q with
          | Ok (err, e2, p) => err = ERR_NONE /\ n = 11 /\ d = [1; 68; 97; 136; 4; 76; 189; 27; 116; 158; 0; 0] /\ date_time e2 = Ok 309830400
          | _ => False
          end
      | _ => False
      end
    | _ => False
    end
  | _ => False
  end.
Proof.
  split. { exists 1. split; [reflexivity|]. split; [exists (mkSem false false 1 0); eexists; split; [reflexivity|]; split; [reflexivity|left; left; reflexivity]|].
    intros s (l & Hl & Hid & [Hin|[_ []]]). injection Hl as <-. destruct Hin as [<-|[]]. reflexivity. }
  split; [id_len 2|]. vm_compute. repeat split.
Qed.
