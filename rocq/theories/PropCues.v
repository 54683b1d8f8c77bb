(** Properties of cue points, seek entries and the look-up of blocks. *)
From Coq Require Import Permutation Sorted.
From Verif Require Import Base Vint EbmlId EbmlIdSpec EbmlIdProofs Ebml Tree TreeRead Create Arr ArrSpec Stream Frame NodeTree NodeTreeSpec NodeTreeProofs PropNode BlockTime BlockTimeProofs Cues CuesSpec CuesProofs CuesProofs2.

(** ** C34 *)
(** MATROSKA_CuesSort on Cues that hold only cue points: the same cue points, by time then track. *)
Theorem C34_sort : forall E junk fuel h F m (look : Z -> cue), rep h F -> m <> 0 -> (length (F m) <= fuel)%nat -> Forall (fun x => a_cue E (look x)) (F m) ->
  exists r h', master_sort fuel h (fun x y => cues_cmp_tot E junk (look x) (look y)) m = Some h' /\
    rep h' (fun q => if q =? m then r else F q) /\ Permutation (F m) r /\ StronglySorted (fun x y => cue_le E (look x) (look y)) r.
Proof. exact cues_sort_ok. Qed.
Print Assumptions C34_sort.

(** MATROSKA_CuesGetTimestampStart on sorted cue points: the last one not after the time asked for, the
    first one if all are after it. *)
Theorem C34_lookup : forall E l ts, Forall (a_cue E) l -> StronglySorted (cue_le E) l -> l <> [] -> ts <> INVALID_TIMESTAMP ->
  exists l1 q l2, l = l1 ++ q :: l2 /\ cues_start E l ts = Ok (Some q) /\
    ((not_after E ts q /\ Forall (after E ts) l2) \/ (l1 = [] /\ Forall (after E ts) l)).
Proof. exact cues_start_ok. Qed.
Print Assumptions C34_lookup.
Theorem C34_lookup_none : forall E ts, cues_start E [] ts = Ok None /\ forall l, cues_start E l INVALID_TIMESTAMP = Ok None.
Proof. intros E ts. unfold cues_start. rewrite Z.eqb_refl. split; [destruct (_ =? _); reflexivity|reflexivity]. Qed.
Print Assumptions C34_lookup_none.

Definition ex_info (c : Z) : info := mkInfo (Known c) true true true 4 1 0 0 0 0.
Definition ex_cue (t n p : Z) : cue :=
  mkCue (Master (ex_info 1) 0 [Leaf (ex_info 2) (VInt t); Master (ex_info 3) 0 [Leaf (ex_info 4) (VInt n); Leaf (ex_info 5) (VInt p)]]) (Some 1000000).
Definition ex_void : cue := mkCue (Leaf (ex_info 99) VNone) None.
Lemma ex_is_cue t n p : 0 <= t < 2 ^ 40 -> 0 <= n < 2 ^ 16 -> is_cue mk_E (ex_cue t n p) (t * 1000000) n p.
Proof.
  intros Ht Hn. eexists _, _, _. split; [reflexivity|]. split; [reflexivity|]. split.
  - eexists _, _. split; [apply first_here; reflexivity|]. split; [reflexivity|lia].
  - eexists _, _, _. split; [apply first_later; [intros X; discriminate X|]; apply first_here; reflexivity|].
    split; [eexists _, _; split; [apply first_here; reflexivity|]; split; [reflexivity|exact Hn]|].
    eexists. apply first_later; [intros X; discriminate X|]; apply first_here; reflexivity.
Qed.
Definition ex_look (x : Z) : cue := if x =? 2 then ex_cue 5 1 100 else if x =? 3 then ex_cue 5 0 100 else ex_cue 2 1 50.
Example C34_sort_ex : rep ex_heap ex_forest /\ Forall (fun x => a_cue mk_E (ex_look x)) (ex_forest 1) /\
  option_map (fun h' => collect 10 h' (n_kids (h' 1))) (master_sort 10 ex_heap (fun x y => cues_cmp_tot mk_E 0 (ex_look x) (ex_look y)) 1) = Some (Some [4; 3; 2]).
Proof.
  split; [exact ex_rep|]. split; [|vm_compute; reflexivity]. change (ex_forest 1) with [2; 3; 4]. repeat constructor; eexists _, _, _; apply ex_is_cue; lia.
Qed.
Example C34_lookup_ex : Forall (a_cue mk_E) [ex_cue 2 1 50; ex_cue 5 0 100; ex_cue 5 1 100; ex_cue 9 1 200] /\
  StronglySorted (cue_le mk_E) [ex_cue 2 1 50; ex_cue 5 0 100; ex_cue 5 1 100; ex_cue 9 1 200] /\
  cues_start mk_E [ex_cue 2 1 50; ex_cue 5 0 100; ex_cue 5 1 100; ex_cue 9 1 200] 6000000 = Ok (Some (ex_cue 5 1 100)) /\
  cues_start mk_E [ex_cue 2 1 50; ex_cue 5 0 100; ex_cue 5 1 100; ex_cue 9 1 200] 1000000 = Ok (Some (ex_cue 2 1 50)).
Proof.
  split; [repeat constructor; eexists _, _, _; apply ex_is_cue; lia|]. split; [|split; vm_compute; reflexivity].
  assert (H : forall a b c d e f, 0 <= a < 2 ^ 40 -> 0 <= b < 2 ^ 16 -> 0 <= d < 2 ^ 40 -> 0 <= e < 2 ^ 16 -> a < d \/ (a = d /\ b <= e) ->
    cue_le mk_E (ex_cue a b c) (ex_cue d e f)).
  { intros a b c d e f Ha Hb Hd He Hle ta na pa tb nb pb H1 H2. destruct (is_cue_fun _ _ _ _ _ _ _ _ H1 (ex_is_cue a b c Ha Hb)) as (-> & -> & _).
    destruct (is_cue_fun _ _ _ _ _ _ _ _ H2 (ex_is_cue d e f Hd He)) as (-> & -> & _). lia. }
  repeat match goal with |- StronglySorted _ _ => constructor | |- Forall _ _ => constructor end; apply H; lia.
Qed.

(** Findings: other elements among the cue points.  A Void counts as a cue point at the end of time: it
    hides the cue points that follow it, and is itself returned when it comes first. *)
Theorem C34_lookup_void_refuted :
  cues_start mk_E [ex_cue 2 1 50; ex_void; ex_cue 5 1 100] 6000000 = Ok (Some (ex_cue 2 1 50)) /\ is_cue mk_E (ex_cue 5 1 100) 5000000 1 100 /\
  cues_start mk_E [ex_void; ex_cue 5 1 100] 6000000 = Ok (Some ex_void).
Proof. split; [vm_compute; reflexivity|]. split; [|vm_compute; reflexivity]. change 5000000 with (5 * 1000000). apply ex_is_cue; lia. Qed.
Print Assumptions C34_lookup_void_refuted.
(** A Void between cue points keeps them from being sorted. *)
Theorem C34_sort_void_refuted : forall junk, array_sort (cues_cmp_tot mk_E junk) true false [ex_cue 5 1 100; ex_void; ex_cue 2 1 50] = Some [ex_cue 5 1 100; ex_void; ex_cue 2 1 50].
Proof. intros junk. vm_compute. reflexivity. Qed.
Print Assumptions C34_sort_void_refuted.
(** Sorting Cues with two Void elements compares them, which calls a NULL function: what the sort does
    depends on the answer of that call. *)
Theorem C34_sort_two_voids_refuted : cues_cmp mk_E ex_void (mkCue (Leaf (ex_info 98) VNone) None) = Null /\
  array_sort (cues_cmp_tot mk_E 0) true false [ex_void; mkCue (Leaf (ex_info 98) VNone) None] <>
  array_sort (cues_cmp_tot mk_E (-1)) true false [ex_void; mkCue (Leaf (ex_info 98) VNone) None].
Proof. split; [vm_compute; reflexivity|]. intros H. vm_compute in H. discriminate. Qed.
Print Assumptions C34_sort_two_voids_refuted.

(** ** C35 *)
(** MATROSKA_MetaSeekUpdate on a Seek entry, whatever it held: it names the element linked to, and gives
    its place in the segment, wherever the segment is put. *)
Theorem C35_seek : forall td fuel e seg id n l, seek_ready e -> valid_id_len id n ->
  0 <= position_data seg < 2 ^ 62 -> position_data seg <= e_epos l < 2 ^ 62 ->
  exists e', seek_update td fuel e (Some seg) (Some (id, l)) = Ok (ERR_NONE, e') /\ seek_id e' = Ok id /\
    seek_rel e' = Ok (e_epos l - position_data seg) /\
    forall seg', 0 <= position_data seg' < 2 ^ 62 -> seek_abs e' (Some seg') = Ok (e_epos l + (position_data seg' - position_data seg)).
Proof.
  intros td fuel e seg id n l He Hid Hs Hl. destruct (seek_update_ok td fuel e seg id n l He Hid) as (e' & H1 & _ & H2 & H3).
  rewrite (s64_small (e_epos l - position_data seg)) in H3 by lia. exists e'. split; [exact H1|]. split; [exact H2|]. split; [exact H3|]. intros seg' Hs'.
  unfold seek_abs. rewrite H3. cbn [bind]. rewrite (proj2 (Z.eqb_neq _ _)) by (unfold INVALID_FILEPOS; lia).
  rewrite s64_small by lia. f_equal. ring.
Qed.
Print Assumptions C35_seek.
(** The entry holds the ID as its bytes, in an element of their size that counts as set. *)
Theorem C35_seek_data : forall td fuel e seg id n l, seek_ready e -> valid_id_len id n ->
  exists i k ch j bs, seek_update td fuel e (Some seg) (Some (id, l)) = Ok (ERR_NONE, Master i k ch) /\
    find_child mk_E ID_SeekID ch = Some (Leaf j (VBin bs)) /\ id_encodes bs id /\ zlen bs = n /\ e_dsize j = n /\ e_set j = true /\ e_need j = false.
Proof.
  intros td fuel e seg id n l (i & k & ch & -> & Hk & H1 & H2) Hid. unfold seek_update. cbn [einfo]. rewrite Hk. cbn [kind_class mk_E c_class].
  assert (Hn4 : n <= 4) by (destruct Hid; lia). destruct (fill_buffer_id_ok id n 4 Hid Hn4) as [He Hl]. set (bs := fill_buffer_id 4 id) in *.
  assert (A : exists j v, match find_child mk_E (c_id (mk_E 11)) ch with Some x => Ok x | None => create mk_E td fuel false 0 11 end = Ok (Leaf j (VBin v)) /\ eid_of mk_E j = ID_SeekID).
  { change (c_id (mk_E 11)) with ID_SeekID. destruct (find_child mk_E ID_SeekID ch) as [d|] eqn:Ed.
    - destruct (H1 d eq_refl) as (j & v & ->). exists j, v. split; [reflexivity|]. exact (find_child_id _ _ _ _ Ed).
    - destruct fuel; eexists _, _; split; reflexivity. }
  destruct A as (j & v & A & Aj).
  destruct (with_child_ok mk_E td fuel false 0 11 (put_bin bs) i k ch _ _ A eq_refl Aj) as (i1 & ch1 & -> & Hk1 & F1 & G1). cbn [bind].
  set (rel := s64 (e_epos l - position_data seg)).
  assert (B : exists j v, match find_child mk_E (c_id (mk_E 12)) ch1 with Some x => Ok x | None => create mk_E td fuel false 0 12 end = Ok (Leaf j (VInt v)) /\ eid_of mk_E j = ID_SeekPosition).
  { change (c_id (mk_E 12)) with ID_SeekPosition. rewrite (G1 ID_SeekPosition) by (vm_compute; discriminate). destruct (find_child mk_E ID_SeekPosition ch) as [d|] eqn:Ed.
    - destruct (H2 d eq_refl) as (j' & v' & ->). exists j', v'. split; [reflexivity|]. exact (find_child_id _ _ _ _ Ed).
    - destruct fuel; eexists _, _; split; reflexivity. }
  destruct B as (j2 & v2 & B & Bj).
  destruct (with_child_ok mk_E td fuel false 0 12 (put_int rel) i1 k ch1 _ _ B eq_refl Bj) as (i2 & ch2 & -> & Hk2 & F2 & G2). cbn [bind].
  eexists _, _, _, _, bs. split; [reflexivity|]. change (c_id (mk_E 11)) with ID_SeekID in *.
  assert (F1' : find_child mk_E ID_SeekID ch2 = find_child mk_E ID_SeekID ch1) by (apply G2; vm_compute; discriminate). rewrite F1 in F1'.
  split; [exact F1'|]. split; [exact He|]. split; [exact Hl|]. split; [exact Hl|]. split; reflexivity.
Qed.
Print Assumptions C35_seek_data.
(** In the segment it was made for the position is exact for every 64-bit position, but for an element
    just before the segment data, whose position reads as missing. *)
Theorem C35_seek_exact : forall td fuel e seg id n l, seek_ready e -> valid_id_len id n -> - 2 ^ 63 <= e_epos l < 2 ^ 63 ->
  exists e', seek_update td fuel e (Some seg) (Some (id, l)) = Ok (ERR_NONE, e') /\
    (s64 (e_epos l - position_data seg) <> -1 -> seek_abs e' (Some seg) = Ok (e_epos l)) /\
    (s64 (e_epos l - position_data seg) = -1 -> seek_abs e' (Some seg) = Ok INVALID_FILEPOS).
Proof.
  intros td fuel e seg id n l He Hid Hl. destruct (seek_update_ok td fuel e seg id n l He Hid) as (e' & H1 & _ & _ & H3). exists e'. split; [exact H1|].
  unfold seek_abs. rewrite H3. cbn [bind]. unfold INVALID_FILEPOS. split; intros H.
  - rewrite (proj2 (Z.eqb_neq _ _) H). rewrite s64_back by exact Hl. reflexivity.
  - rewrite H. reflexivity.
Qed.
Print Assumptions C35_seek_exact.
(** Without a segment above or an element linked to, the entry is left alone and the error tells. *)
Theorem C35_seek_unlinked : forall td fuel e seg link, seek_ready e -> seg = None \/ link = None -> seek_update td fuel e seg link = Ok (ERR_INVALID_DATA, e).
Proof.
  intros td fuel e seg link (i & k & ch & -> & Hk & _) H. unfold seek_update. cbn [einfo]. rewrite Hk. cbn [kind_class mk_E c_class].
  destruct H as [->| ->]; [reflexivity|]. destruct seg; reflexivity.
Qed.
Print Assumptions C35_seek_unlinked.
Definition ex_seek : elt := Master (ex_info 10) 0 [].
Definition ex_at (ep sp : Z) : info := mkInfo (Known 99) true false true 1000 1 0 ep sp 0.
Example C35_seek_ex : seek_ready ex_seek /\ valid_id_len 524531317 4 /\ position_data (ex_at 40 44) = 46 /\
  match seek_update (fun x => x) 0 ex_seek (Some (ex_at 40 44)) (Some (524531317, ex_at 500 504)) with
  | Ok (_, e) => (seek_id e, seek_rel e, seek_abs e (Some (ex_at 40 44)), seek_abs e (Some (ex_at 140 144))) = (Ok 524531317, Ok 454, Ok 500, Ok 600)
  | _ => False
  end.
Proof.
  split; [eexists _, _, _; split; [reflexivity|]; split; [reflexivity|]; split; intros d H; discriminate H|].
  split; [unfold valid_id_len; lia|]. split; vm_compute; reflexivity.
Qed.
(** Finding: the ID of an entry whose SeekID is cut short is read beyond its data. *)
Theorem C35_seek_id_refuted : exists e, seek_ready e /\ seek_id e = Bad.
Proof.
  exists (Master (ex_info 10) 0 [Leaf (ex_info 11) (VBin [26])]). split; [|vm_compute; reflexivity].
  eexists _, _, _. split; [reflexivity|]. split; [reflexivity|]. split; intros d H; [|discriminate H]. injection H as <-. eexists _, _. reflexivity.
Qed.
Print Assumptions C35_seek_id_refuted.

(** MATROSKA_CuePointUpdate, whatever the cue point held: it gets the time of the block rounded to the
    scale, its track, and the place of its cluster in the segment. *)
Theorem C35_cue : forall td fuel prof q i k ch s bt track c seg, (2 <= fuel)%nat -> q_elt q = Master i k ch -> e_kind i = Known 1 ->
  seg_scale (q_seg q) = s -> 0 < s -> Z.abs bt < 2 ^ 62 -> 0 <= track < 2 ^ 16 -> 0 <= position_data seg < 2 ^ 62 -> position_data seg <= e_epos c < 2 ^ 62 ->
  exists q' t, cue_update td fuel prof q bt track (Some c) seg = Ok (ERR_NONE, q') /\
    is_cue mk_E q' t track (e_epos c - position_data seg) /\ rounds s 0 bt t /\
    cue_time mk_E q' = Ok t /\ cue_track mk_E q' = Ok track /\ cue_pos mk_E q' = Ok (e_epos c - position_data seg).
Proof.
  intros td fuel prof q i k ch s bt track c seg Hf Hq Hk Hs Hp Hb Ht Hd He.
  assert (Hid : has_id mk_E 187 (q_elt q)) by (rewrite Hq; unfold has_id; cbn [einfo]; rewrite Hk; reflexivity).
  destruct (cue_update_ok td fuel prof q i k ch s bt track c seg) as (q' & H1 & _ & H2); try assumption; try lia.
  exists q', (Z.quot bt s * s). split; [exact H1|]. split; [exact H2|].
  split; [pose proof (rounds_quot s 0 bt Hp) as Hr; rewrite Z.sub_0_r, Z.add_0_l in Hr; exact Hr|].
  split; [exact (cue_time_ok _ _ _ _ _ H2)|]. split; [exact (cue_track_ok _ _ _ _ _ H2)|exact (cue_pos_ok _ _ _ _ _ H2)].
Qed.
Print Assumptions C35_cue.
Example C35_cue_ex : match cue_update (fun x => x) 2 0 (mkCue (Master (ex_info 1) 0 [Leaf (ex_info 5) VNone]) None) 12345678 3 (Some (ex_at 500 504)) (ex_at 40 44) with
  | Ok (err, q) => (err, cue_time mk_E q, cue_track mk_E q, cue_pos mk_E q) = (ERR_NONE, Ok 12000000, Ok 3, Ok 454)
  | _ => False
  end.
Proof. vm_compute. reflexivity. Qed.
(** Without a cluster above the block the error tells. *)
Theorem C35_cue_no_cluster : forall td fuel prof q i k ch s bt track seg, (2 <= fuel)%nat -> q_elt q = Master i k ch -> e_kind i = Known 1 ->
  seg_scale (q_seg q) = s -> 0 < s -> Z.abs bt < 2 ^ 62 -> exists q', cue_update td fuel prof q bt track None seg = Ok (ERR_INVALID_DATA, q').
Proof.
  intros td fuel prof q i k ch s bt track seg Hf Hq Hk Hs Hp Hb. destruct fuel as [|[|fuel]]; [lia..|]. unfold cue_update. rewrite Hq, Hs, (scale64_ok bt s) by assumption.
  cbn [add_mandatory]. rewrite Hk. do 3 (cbn -[Z.land Z.quot s64 seg_scale position_data Z.sub]; rewrite ?Z.land_0_l; change (0 =? 0) with true).
  destruct (Z.land PROF_STATE prof =? 0); cbn -[Z.land Z.quot s64 seg_scale position_data Z.sub]; eexists; reflexivity.
Qed.
Print Assumptions C35_cue_no_cluster.
(** Finding: a block whose time is not known (its track is not linked) is indexed at a time of its own. *)
Theorem C35_cue_unknown_time_refuted : exists q, block_time new_block None = Ok (INVALID_TIMESTAMP, new_block, None) /\
  cue_update (fun x => x) 2 0 (mkCue (Master (ex_info 1) 0 []) None) INVALID_TIMESTAMP 3 (Some (ex_at 500 504)) (ex_at 40 44) = Ok (ERR_NONE, q) /\
  cue_time mk_E q = Ok 9223372036854000000.
Proof. eexists. split; [vm_compute; reflexivity|]. split; [vm_compute; reflexivity|]. vm_compute. reflexivity. Qed.
Print Assumptions C35_cue_unknown_time_refuted.

(** ** C53 *)
(** MATROSKA_GetBlockForTimestamp: the first block of the cluster, in file order, with that track and
    time, NULL when there is none; tracks below 32768. *)
Theorem C53_first_match : forall ct s track ts l c, at_time ct c -> big ct -> scale_ok s -> Forall (timed ct s) (places 0 l) -> 0 <= track < 2 ^ 15 ->
  exists r, get_block l 0 track ts c = Ok r /\
    match r with
    | None => Forall (fun p => ~ matches ct s track ts p) (places 0 l)
    | Some (i, j) => exists l1 kb l2, places 0 l = l1 ++ (i, j, kb) :: l2 /\ matches ct s track ts (i, j, kb) /\
        Forall (fun p => ~ matches ct s track ts p) l1
    end.
Proof.
  intros ct s track ts l c Hc Hb Hs Hl Ht. pose proof (get_block_ok ct s track ts l 0 c Hc Hb Hs Hl) as H. rewrite (s16_small track Ht) in H. exact H.
Qed.
Print Assumptions C53_first_match.
Definition ex_tb (loc : Z) : tblock := mkT loc true INVALID_TIMESTAMP None None true true.
Definition ex_children : list cchild := [COther; CGroup [None; Some (2, ex_tb 10)]; CSimple 1 (ex_tb 10); CSimple 2 (ex_tb 40); CSimple 2 (ex_tb 10)].
Definition ex_clus : clus := mkCl (Some 7) INVALID_TIMESTAMP None None.
Example C53_first_match_ex : at_time 7000000 ex_clus /\ Forall (timed 7000000 1000000) (places 0 ex_children) /\
  get_block ex_children 0 2 17000000 ex_clus = Ok (Some (1%nat, 1%nat)) /\ get_block ex_children 0 1 17000000 ex_clus = Ok (Some (2%nat, 0%nat)) /\
  get_block ex_children 0 2 47000000 ex_clus = Ok (Some (3%nat, 0%nat)) /\ get_block ex_children 0 1 47000000 ex_clus = Ok None.
Proof.
  split; [eexists; vm_compute; reflexivity|]. split; [|repeat split; vm_compute; reflexivity].
  assert (H : forall n m k loc, 0 <= k < 2 ^ 16 -> -32768 <= loc <= 32767 -> timed 7000000 1000000 (n, m, (k, ex_tb loc))).
  { intros n m k loc Hk Hl. split; [exact Hk|]. exists (7000000 + loc * 1000000). split; [|unfold big; lia]. repeat split; try reflexivity; cbn; lia. }
  cbn [places group_places app ex_children]. repeat constructor; apply H; lia.
Qed.
(** Finding: blocks of tracks from 32768 on are never found. *)
Theorem C53_high_track_refuted : get_block [CSimple 40000 (ex_tb 10)] 0 40000 17000000 ex_clus = Ok None /\
  matches 7000000 1000000 40000 17000000 (0%nat, 0%nat, (40000, ex_tb 10)).
Proof. split; [vm_compute; reflexivity|]. repeat split; try reflexivity; cbn; lia. Qed.
Print Assumptions C53_high_track_refuted.

(** A cue point made for a block leads back to it: it gives the time, the track and the place of the
    cluster, and looking for that time and track in the cluster finds a block of this time and track. *)
Theorem C53_cue_to_block : forall td fuel prof q i k ch s m c seg cl l ct n1 n2 track b t, (2 <= fuel)%nat -> q_elt q = Master i k ch -> e_kind i = Known 1 ->
  seg_scale (q_seg q) = s -> scale_ok s -> 0 <= track < 2 ^ 15 -> 0 <= position_data seg < 2 ^ 62 -> position_data seg <= e_epos c < 2 ^ 62 ->
  at_time ct cl -> big ct -> Forall (timed ct s) (places 0 l) -> ct = m * s -> In (n1, n2, (track, b)) (places 0 l) -> block_at ct s b t -> big t ->
  exists q' t' n' p i j kb, cue_update td fuel prof q t track (Some c) seg = Ok (ERR_NONE, q') /\
    cue_time mk_E q' = Ok t' /\ cue_track mk_E q' = Ok n' /\ cue_pos mk_E q' = Ok p /\ position_data seg + p = e_epos c /\
    get_block l 0 n' t' cl = Ok (Some (i, j)) /\ In (i, j, kb) (places 0 l) /\ matches ct s track t (i, j, kb).
Proof.
  intros td fuel prof q i k ch s m c seg cl l ct n1 n2 track b t Hf Hq Hk Hs Hok Htr Hd He Hcl Hb Hl Hct Hin Hat Hbt.
  destruct (C35_cue td fuel prof q i k ch s t track c seg) as (q' & t' & H1 & _ & Hr & H2 & H3 & H4); try assumption; try (unfold scale_ok, big in *; lia).
  assert (t' = t).
  { apply (rounds_exact s 0 t t' Hr). destruct Hat as (_ & _ & _ & _ & _ & _ & ->). exists (m + t_local b). rewrite Hct. ring. }
  subst t'. destruct (C53_first_match ct s track t l cl Hcl Hb Hok Hl Htr) as (r & Hg & Hm). destruct r as [[i' j']|].
  - destruct Hm as (l1 & kb & l2 & El & Hma & _). exists q', t, track, (e_epos c - position_data seg), i', j', kb.
    repeat (split; [first [assumption | ring]|]). split; [rewrite El; apply in_elt|exact Hma].
  - exfalso. rewrite Forall_forall in Hm. apply (Hm _ Hin). split; [reflexivity|exact Hat].
Qed.
Print Assumptions C53_cue_to_block.
