(** The sizes of Layout.v are those of the element trees. *)
From Verif Require Import Base BaseProofs Vint VintProofs EbmlId IntElt IntEltSpec IntEltProofs EltHead Ebml Tree TreeRead Create Arr Stream Frame BlockTime BlockTimeProofs Cues CuesSpec Layout LayoutSpec LayoutProofs.

Lemma usize0 x : update_size_uint x 0 = usize x.
Proof.
  unfold usize, update_size_uint. set (n := if u64 x <=? 255 then _ else _).
  assert (H : 1 <= n <= 8) by (unfold n; repeat match goal with |- context [if ?b then _ else _] => destruct b end; lia).
  replace (n <? 0) with false by lia. replace (n <? 1) with false by lia. reflexivity.
Qed.
Lemma fs_short id d : 0 <= d < 127 -> full_size id d 0 true = d + get_id_length id + 1.
Proof. intros H. exact (full_short id d H). Qed.
Lemma cue_tree_size td flt fuel prof q i k ch s bt track c seg n cl : (2 <= fuel)%nat -> q_elt q = Master i k ch -> e_kind i = Known 1 -> e_fin i = true -> e_szlen i = 0 -> e_defsz i = -1 ->
  seg_scale (q_seg q) = s -> 0 < s -> Z.abs bt < 2 ^ 62 -> 0 <= track < 2 ^ 16 -> - 2 ^ 62 < e_epos c < 2 ^ 62 -> - 2 ^ 62 < position_data seg < 2 ^ 62 ->
  n = mkLC (Z.quot bt s) track (if k =? 0 then 0 else 6) cl ->
  exists q', cue_update td fuel prof q bt track (Some c) seg = Ok (ERR_NONE, q') /\
    exists d e', update_size mk_E flt false (q_elt q') = Ok (d, e') /\ full_size_of mk_E flt false e' = Ok (cue_full n (e_epos c - position_data seg)).
Proof.
  intros Hf Hq Hk Hfin Hsl Hdf Hs Hp Hb Ht He Hd ->. destruct fuel as [|[|fuel]]; [lia..|].
  assert (Hqs : - 2 ^ 62 < Z.quot bt s < 2 ^ 62).
  { assert (Z.abs (Z.quot bt s) * s <= Z.abs bt). { rewrite <- Z.quot_abs by lia. rewrite (Z.abs_eq s) by lia. rewrite Z.mul_comm. apply Z.mul_quot_le; lia. }
    assert (Z.abs (Z.quot bt s) <= Z.abs (Z.quot bt s) * s) by nia. lia. }
  unfold cue_update. rewrite Hq, Hs, (scale64_ok bt s) by assumption.
  cbn [add_mandatory]. rewrite Hk. cbn -[Z.land Z.quot s64 seg_scale position_data Z.sub].
  rewrite !Z.land_0_l. change (0 =? 0) with true. cbn -[Z.land Z.quot s64 seg_scale position_data Z.sub].
  rewrite ?Z.land_0_l. change (0 =? 0) with true. cbn -[Z.land Z.quot s64 seg_scale position_data Z.sub].
  assert (H0 : forall x, - 2 ^ 63 <= x < 2 ^ 63 -> s64 x = x) by exact BlockTimeProofs.s64_small.
  destruct (Z.land PROF_STATE prof =? 0); cbn -[Z.land Z.quot s64 seg_scale position_data Z.sub].
  all: eexists; split; [reflexivity|]; unfold int_set; rewrite ?(H0 (Z.quot bt s)), ?(H0 track), ?(H0 (e_epos c - position_data seg)) by lia; cbn [q_elt].
  all: set (p := e_epos c - position_data seg) in *; set (t := Z.quot bt s) in *.
  all: cbn -[Z.quot update_size_uint full_size]; rewrite !usize0.
  all: pose proof (usize_range t) as R1; pose proof (usize_range track) as R2; pose proof (usize_range p) as R3.
  all: rewrite cue_full_eq by (cbn [lc_chk]; destruct (k =? 0); auto); cbn [lc_chk lc_time lc_track].
  all: set (a := usize t) in *; set (b := usize track) in *; set (d := usize p) in *; clearbody a b d p t.
  all: replace (a <? 1) with false by lia; replace (b <? 1) with false by lia; replace (d <? 1) with false by lia.
  all: cbn -[full_size Z.add].
  all: unfold INVALID_FILEPOS; replace (a =? -1) with false by lia; replace (b =? -1) with false by lia; replace (d =? -1) with false by lia.
  all: unfold full_size_of; cbn -[full_size Z.add].
  all: rewrite (fs_short ID_CueTime), (fs_short ID_CueTrack), (fs_short ID_CueClusterPosition) by lia.
  all: change (get_id_length ID_CueTime) with 1; change (get_id_length ID_CueTrack) with 1; change (get_id_length ID_CueClusterPosition) with 1.
  all: replace (b + 1 + 1 + (d + 1 + 1) <? -1) with false by lia.
  all: cbn -[full_size Z.add].
  all: replace (b + 1 + 1 + (d + 1 + 1) =? -1) with false by lia.
  all: cbn -[full_size Z.add].
  all: rewrite (fs_short ID_CueTrackPositions) by lia; change (get_id_length ID_CueTrackPositions) with 1.
  all: match goal with |- context [?x <? e_defsz ?j] => replace (x <? e_defsz j) with false by (destruct (k =? 0); lia) end.
  all: eexists _, _; split; [reflexivity|]; cbn -[full_size Z.add]; unfold eid_of; cbn -[full_size Z.add]; rewrite Hk, Hfin, Hsl; cbn -[full_size Z.add].
  all: rewrite fs_short by (destruct (k =? 0); lia); change (get_id_length ID_CuePoint) with 1; f_equal; lia.
Qed.

